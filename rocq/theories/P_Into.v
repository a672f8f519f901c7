(** C93: what is written for a project of the API is exactly the records that [SpecInto.v] describes. *)
From Coq Require Import Lia.
From Verif Require Import Base Str Flt Dec M_Color M_Raw M_Project M_File M_Library M_Resource M_View M_Logic M_Parsed A_Block A_View A_Screen A_Project
  Spec SpecLines SpecBlock SpecScreen SpecInto BlockContentProofs BlockWriteProofs IntoProofs P_Screen P_ApiProject.

(** ids fit into an i32 if every code has fewer blocks than this *)
Definition ids_fit (l : blocks) : Prop := 9 + N.of_nat (blocks_size l) < 2 ^ 31.

Theorem C93_written p q : Forall ids_fit (codes p) -> (project_into p = Ok q <-> written_as p q).
Proof. apply written_iff. Qed.
Print Assumptions C93_written.
Theorem C93_code l c : ids_fit l -> (blocks_into l = Ok c <-> code_written l c).
Proof. apply code_iff. Qed.
Print Assumptions C93_code.
Theorem C93_views parent t vs out : flatten_views vs (Some parent) (Some t) = out <-> views_listed parent t vs out.
Proof. symmetry. apply listed_iff. Qed.
Print Assumptions C93_views.
(** without a parent the views are those of the root, without a type those of a linear layout; either can be left out *)
Theorem C93_views_default p t vs :
  flatten_views vs p t = flatten_views vs (Some (match p with Some p => p | None => lit "root" end)) (Some (match t with Some t => t | None => 0 end)).
Proof. now destruct p, t. Qed.
Print Assumptions C93_views_default.
(** a moreblock on its own *)
Theorem C93_more_block m : into_parser_more_block m = ({| mb_id := am_name m; mb_spec := spec_text (am_spec m) |}, am_code m).
Proof. unfold into_parser_more_block. now rewrite content_to_string_join. Qed.
Print Assumptions C93_more_block.
Theorem C93_file_name w n : @get_full_name unit w = Ok n <-> file_called w n.
Proof. symmetry. apply called_iff. Qed.
Print Assumptions C93_file_name.

(** Writing fails for two reasons only, and it is always a panic. *)
Theorem C93_panics p : Forall ids_fit (codes p) ->
  (project_into p = Panic <->
   (exists l, In l (codes p) /\ ~ Forall no_holes l) \/ (exists w, In w (resource_wrappers p) /\ forall n, ~ file_called w n)).
Proof.
  intros SM. pose proof (into_ok_iff p SM) as OK. split.
  - intros P.
    assert (D1 : forall ls, Forall ids_fit ls -> Forall (Forall no_holes) ls \/ exists l, In l ls /\ ~ Forall no_holes l).
    { clear. induction 1 as [|l ls S _ [IH|(x & I & N)]]; [now left| |right; exists x; split; [now right|exact N]].
      destruct (blocks_into l) as [c|e|] eqn:E.
      - left. constructor; [|exact IH]. apply into_total; [exact S|eauto].
      - right. exists l. split; [now left|]. intros F. apply into_total in F as (c & F); [congruence|exact S].
      - right. exists l. split; [now left|]. intros F. apply into_total in F as (c & F); [congruence|exact S]. }
    assert (D2 : forall ws, Forall (fun w => exists n, file_called w n) ws \/ exists w, In w ws /\ forall n, ~ file_called w n).
    { clear. induction ws as [|w ws [IH|(x & I & N)]]; [now left| |right; exists x; split; [now right|exact N]].
      destruct (@get_full_name unit w) as [n|e|] eqn:E.
      - left. constructor; [|exact IH]. exists n. now apply called_iff.
      - right. exists w. split; [now left|]. intros n F. apply called_iff in F. unfold SpecProject.full_name in F. congruence.
      - right. exists w. split; [now left|]. intros n F. apply called_iff in F. unfold SpecProject.full_name in F. congruence. }
    destruct (D1 _ SM) as [C|C]; [|now left]. destruct (D2 (resource_wrappers p)) as [R|R]; [|now right].
    destruct (proj2 OK (conj C R)) as (q & E). congruence.
  - intros H. destruct (project_into p) as [q|e|] eqn:E; [|now destruct (into_noerr p e)|reflexivity].
    exfalso. destruct (proj1 OK (ex_intro _ q eq_refl)) as [C R]. rewrite Forall_forall in C, R.
    destruct H as [(l & I & N)|(w & I & N)]; [now apply N, C|]. destruct (R w I) as (n & F). now apply (N n).
Qed.
Print Assumptions C93_panics.
Theorem C93_never_fails p e : project_into p <> Err e.
Proof. apply into_noerr. Qed.
Print Assumptions C93_never_fails.

(** Code with a block and a truth value as arguments and a stack of two, the records of the libraries, and names of files. *)
Definition nested93 : blocks :=
  [MkBlock (Some [toast "a"; toast "b"]) None green (lit "if")
     [SText (lit "if"); SParam (ArgBoolean (Some (lit "c")) (ABlock (MkBlock None None green (lit "not") [SText (lit "not"); SParam (ArgBoolean None (AValue true))] (TArgument RBoolean))))] (TControl OneNest);
   toast "c"].
Definition brief93 (b : block) := (bl_id b, bl_next_block b, bl_spec b, bl_parameters b, bl_sub_stack1 b, bl_type b).
Example C93_example :
  (exists c, code_written nested93 c /\ map brief93 c =
     [(lit "10", 15, lit "if %b.c", [lit "@12"], 14, lit "c"); (lit "11", -1, lit "not %b", [lit "@12"], -1, lit "b"); (lit "12", -1, lit "true", [], -1, lit "b");
      (lit "13", 14, lit "Toast %s", [lit "a"], -1, lit " "); (lit "14", -1, lit "Toast %s", [lit "b"], -1, lit " "); (lit "15", -1, lit "Toast %s", [lit "c"], -1, lit " ")]%Z) /\
  (exists q, written_as (project46 true) q /\
     map (fun x => (li_lib_type x, li_use_yn x, li_data x)) [l_firebase (pp_library q); l_compat (pp_library q); l_admob (pp_library q); l_google_map (pp_library q)] =
       [(0, lit "N", []); (1, lit "Y", []); (2, lit "N", []); (3, lit "Y", lit "key")] /\
     map (fun x => (ri_name x, ri_full_name x, ri_type x)) (rs_images (pp_resource q)) = [(lit "a", lit "a.png", 1)] /\
     map fst (vw_layouts (pp_view q)) = [lit "my_page"; lit "row"] /\ map fst (vw_fabs (pp_view q)) = [lit "my_page"]) /\
  path_name (lit "/home/x.y//a.png/./") (lit "a.png") /\ (forall n, ~ path_name (lit "/home/..") n) /\
  (* a path that ends in two dots *)
  project_into {| sp_custom_icon := None; sp_metadata := sp_metadata (project46 true); sp_colors := sp_colors (project46 true); sp_screens := []; sp_custom_views := [];
                  sp_libraries := sp_libraries (project46 true); sp_resources := {| re_images := [(lit "a", WPath (lit "x/.."))]; re_sounds := []; re_fonts := [] |}; sp_automatic := true |} = Panic.
Proof.
  split; [|split; [|split; [|split]]].
  - eexists. split; [apply C93_code; [unfold ids_fit; vm_compute; reflexivity|vm_compute; reflexivity]|reflexivity].
  - destruct (project_into (project46 true)) as [q|e|] eqn:E; [|vm_compute in E; discriminate E..]. exists q. split.
    + apply C93_written; [|exact E]. unfold codes. repeat (constructor; [unfold ids_fit; vm_compute; reflexivity|]). constructor.
    + apply (f_equal (fun r => match r with Ok x => Some x | _ => None end)) in E. assert (X : forall q', Some q' = Some q -> q' = q) by congruence.
      vm_compute in E. apply X in E. subst q. repeat split.
  - apply path_name_iff. vm_compute. reflexivity.
  - intros n H. apply path_name_iff in H. vm_compute in H. discriminate H.
  - vm_compute. reflexivity.
Qed.
