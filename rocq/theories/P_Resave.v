(** Property C96: code and projects that have been read, written and read again
    (/repo/src/api/block.rs L60-420, /repo/src/api/screen.rs L182-282, /repo/src/api/mod.rs L303-450, L487-675). *)
From Coq Require Import Lia.
From Verif Require Import Base Str Flt M_Color M_Date M_Raw M_Project M_File M_Library M_Resource M_View M_Logic M_Parsed A_Block A_View A_Screen A_Project
  SpecBlock SpecView SpecScreen SpecProject SpecLoad SpecSave SpecDate DateTextProofs BlockWriteProofs BackProofs CleanProofs ResaveProofs
  P_Block P_ApiProject P_Loading P_Save P_Back P_Settle SpecBack SpecSettle SpecResave.

(** ** C96: what is like code that has been read *)
(** words can be told apart, strings are no references, every argument has a value or a block: everywhere in the tree *)
Theorem C96_read c l : blocks_try_from c = Ok l -> Forall (everywhere as_read) l.
Proof. apply read_clean. Qed.
Print Assumptions C96_read.
(** So it can be written, and what is written can be read exactly if no list is among the blocks that are read again;
    it comes back with, in the place of each argument and sub stack, the one block written last in it. *)
Theorem C96_written c l : blocks_try_from c = Ok l -> 9 + N.of_nat (blocks_size l) < 2 ^ 31 ->
  exists c', blocks_into l = Ok c' /\ blocks_try_from c' <> Panic /\
    (forall l', blocks_try_from c' = Ok l' <-> no_lists l /\ l' = map block_back l) /\
    (no_lists l -> Forall SpecBlock.kept (map block_back l) /\ map block_back (map block_back l) = map block_back l).
Proof.
  intros R L. apply read_clean in R. destruct (clean_plain l R) as (Nh & Pl & NL). destruct (proj2 (C29_total l L) Nh) as (c' & W). exists c'. split; [exact W|].
  assert (L' : 9 + N.of_nat (length c') < 2 ^ 31) by (rewrite (C29_count _ _ W); exact L). split; [exact (C94_no_panic _ _ W L' Pl)|]. split.
  - intros l'. rewrite (C94_back _ _ W L' Pl), NL. tauto.
  - intros X. apply NL in X. apply (C94_settled l c' _ W L' Pl). apply (C94_back _ _ W L' Pl). auto.
Qed.
Print Assumptions C96_written.
(** reading, writing and reading changes nothing exactly if the code is [kept] (C31) *)
Theorem C96_unchanged c l : blocks_try_from c = Ok l -> 9 + N.of_nat (blocks_size l) < 2 ^ 31 ->
  ((exists c', blocks_into l = Ok c' /\ blocks_try_from c' = Ok l) <-> Forall SpecBlock.kept l).
Proof.
  intros R L. destruct (C96_written c l R L) as (c' & W & _). assert (L' : 9 + N.of_nat (length c') < 2 ^ 31) by (rewrite (C29_count _ _ W); exact L). split.
  - intros (c2 & W2 & B2). pose proof (eq_trans (eq_sym W2) W) as E. injection E as ->. now apply (C31_partial l c' W L').
  - intros K. exists c'. split; [exact W|]. now apply (C31_partial l c' W L').
Qed.
Print Assumptions C96_unchanged.

(** ** Projects *)
(** of the conditions of C95, those on the code and the more blocks hold of every project that has been loaded *)
Theorem C96_loaded rnd v p : project_try_from rnd v = Ok p -> (plain_project p <-> arranged p) /\ (all_given (sp_screens p) <-> project_no_lists (sp_screens p)).
Proof.
  intros H. apply project_read_clean in H. split.
  - unfold plain_project, arranged. enough (E : Forall plain_screen (sp_screens p) <-> Forall arranged_screen (sp_screens p)) by tauto.
    rewrite !Forall_forall in *. split; intros K s I; specialize (K s I); destruct (H s I) as (H1 & H2 & H3 & H4).
    + destruct K as (K1 & K2 & K3 & K4 & K5 & K6 & K7 & K8). split; [exact K1|]. split; [|auto]. eapply Forall_impl; [|exact K5]. intros l X. apply X.
    + destruct K as (K1 & K2 & K3 & K4 & K5). split; [exact K1|]. split; [exact H1|]. split; [exact H2|]. split; [exact H3|]. split; [|auto]. rewrite Forall_forall in *. intros l X. apply clean_code; auto.
  - unfold all_given, project_no_lists. rewrite !Forall_forall in *. split; intros K s I; specialize (K s I); destruct (H s I) as (_ & _ & _ & H4); rewrite Forall_forall in *; intros l X; apply (clean_given l (H4 l X)); auto.
Qed.
Print Assumptions C96_loaded.
(** in memory: as C95_memory *)
Theorem C96_memory rnd v rnd' p : project_try_from rnd v = Ok p -> arranged p -> ready_resources (sp_resources p) -> exists q, project_into p = Ok q /\
  project_try_from rnd' q <> Panic /\
  (forall p', project_try_from rnd' q = Ok p' -> project_no_lists (sp_screens p)) /\
  (project_no_lists (sp_screens p) -> sp_automatic p = false -> exists p', project_try_from rnd' q = Ok p' /\ comes_back (settle p) p').
Proof.
  intros H A RR. destruct (C96_loaded _ _ _ H) as (P & G). apply P in A. destruct (C95_memory rnd' p A RR) as (q & W & N1 & N2 & N3). exists q. split; [exact W|]. split; [exact N1|]. split.
  - intros p' K. apply G. eapply N2; eauto.
  - intros K Au. apply G in K. now apply N3.
Qed.
Print Assumptions C96_memory.
(** through the files: as C95_files, when the project has been loaded from anywhere *)
Theorem C96_files mv ex rnd v rnd' p dt : project_try_from rnd v = Ok p -> arranged p -> ready_resources (sp_resources p) -> sp_automatic p = false -> project_fits p dt ->
  (exists r, project_into_raw p r) /\
  forall r t, project_into_raw p r -> date_value (date_text dt) t -> last_only p ->
    exists v', parse_from mv ex r = Ok v' /\ project_try_from rnd' v' <> Panic /\
      (forall p', project_try_from rnd' v' = Ok p' -> project_no_lists (code_kept (sp_screens p))) /\
      (project_no_lists (code_kept (sp_screens p)) -> exists p', project_try_from rnd' v' = Ok p' /\ comes_back (settle (remains (created_at t p))) p').
Proof.
  intros H A RR Au PF. destruct (C96_loaded _ _ _ H) as (P & _). apply P in A. destruct (C95_files mv ex rnd' p dt A RR Au PF) as (W & O). split; [exact W|].
  intros r t R D LO. destruct (O r R) as (_ & _ & O1). destruct (proj2 (O1 t D) LO) as (v' & K & N1 & N2 & N3). exists v'. split; [exact K|]. split; [exact N1|].
  pose proof (kept_lists _ (project_read_clean _ _ _ H)) as G. split.
  - intros p' L. apply G. eapply N2; eauto.
  - intros X. apply N3. now apply G.
Qed.
Print Assumptions C96_files.

(** ** Examples *)
(** "while not [p q] do [a; b]": the stored code is read whole; once it is written it has only q and b left *)
Definition raw96 (ty : string) (name : string) : list block :=
  [rb 10 14 (lit "while") (lit "while %b") [lit "@11"] 12 (-1) (lit "c") [];
   rb 11 (-1) (lit "p") (lit "p %b.x") [lit "@15"] (-1) (-1) (lit "b") [];
   rb 12 13 (lit "a") (lit "a") [] (-1) (-1) (lit " ") [];
   rb 13 (-1) (lit "b") (lit "b %d") [lit "2.50"] (-1) (-1) (lit " ") [];
   rb 14 (-1) (lit "e") (lit "e %m.view") [lit "linear1"] (-1) (-1) (lit ty) (lit name);
   rb 15 (-1) (lit "q") (lit "q") [] (-1) (-1) (lit "b") []].
Definition leaf96 (op : string) (ty : block_type) : ablock := MkBlock None None green (lit op) [SText (lit op)] ty.
Definition tree96 (ty : block_type) (cond : ablock) (sub : list ablock) : blocks :=
  [MkBlock (Some sub) None green (lit "while") [SText (lit "while"); SParam (ArgBoolean None (ABlock cond))] (TControl OneNest);
   MkBlock None None green (lit "e") [SText (lit "e"); SParam (ArgMenu (lit "view") (AValue (lit "linear1")))] ty].
Definition q96 : ablock := leaf96 "q" (TArgument RBoolean).
Definition p96 : ablock := MkBlock None None green (lit "p") [SText (lit "p"); SParam (ArgBoolean (Some (lit "x")) (ABlock q96))] (TArgument RBoolean).
Definition b96 : ablock := MkBlock None None green (lit "b") [SText (lit "b"); SParam (ArgNumber None (AValue (FFin false 5629499534213120 (-51))))] TRegular.
Definition v96 (ty name : string) : parsed_project :=
  let v := twice ["main"]%string in
  {| pp_project := pp_project v; pp_file := pp_file v; pp_library := pp_library v; pp_resource := {| rs_images := []; rs_sounds := []; rs_fonts := [] |}; pp_view := pp_view v;
     pp_logic := [(lit "MainActivity", {| sl_name := lit "MainActivity"; sl_block_containers := [(lit "onCreate_initializeLogic", raw96 ty name)]; sl_variables := None; sl_list_variables := None;
                   sl_components := None; sl_events := None; sl_more_blocks := None |})]; pp_resource_files := Some res_files_default |}.
Definition codes (r : res project_error sw_project) : option (list blocks) := match r with Ok p => Some (flat_map screen_codes (sp_screens p)) | _ => None end.
Definition resaved (r : res project_error sw_project) : option (res project_error sw_project) :=
  match r with Ok p => match project_into p with Ok q => Some (project_try_from rnd0 q) | _ => None end | _ => None end.
Example C96_example :
  let l := tree96 TRegular p96 [leaf96 "a" TRegular; b96] in
  let l' := tree96 TRegular q96 [b96] in
  blocks_try_from (raw96 " " "") = Ok l /\ map block_back l = l' /\ no_lists l /\
  (exists c, blocks_into l = Ok c /\ blocks_try_from c = Ok l') /\ ~ Forall SpecBlock.kept l /\
  (* the same in a project *)
  codes (project_try_from rnd0 (v96 " " "")) = Some [l] /\ option_map codes (resaved (project_try_from rnd0 (v96 " " ""))) = Some (Some [l']).
Proof.
  cbv zeta. split; [vm_compute; reflexivity|]. split; [vm_compute; reflexivity|]. split; [repeat constructor|]. split; [eexists; split; [vm_compute; reflexivity|vm_compute; reflexivity]|].
  split; [intros K; apply Forall_inv in K as ([K|(b & K & _)] & _); discriminate|]. split; vm_compute; reflexivity.
Qed.
(** a block of the type of a list is read but what is written of it cannot be read *)
Example C96_list_example :
  let l := tree96 (TArgument (RList LiNumber)) p96 [leaf96 "a" TRegular; b96] in
  blocks_try_from (raw96 "l" "List Number") = Ok l /\ ~ no_lists l /\
  (exists c, blocks_into l = Ok c /\ blocks_try_from c = Err (InvalidType {| ibt_type := lit "l"; ibt_name := [] |})) /\
  codes (project_try_from rnd0 (v96 "l" "List Number")) = Some [l] /\
  exists e, resaved (project_try_from rnd0 (v96 "l" "List Number")) = Some (Err e).
Proof.
  cbv zeta. split; [vm_compute; reflexivity|]. split; [intros K; apply Forall_inv_tail, Forall_inv, Forall_inv in K; exact K|]. split; [eexists; split; [vm_compute; reflexivity|vm_compute; reflexivity]|].
  split; [vm_compute; reflexivity|]. eexists. vm_compute. reflexivity.
Qed.
(** the project is arranged, so all of the above applies to it *)
Example C96_arranged_example : exists p, project_try_from rnd0 (v96 " " "") = Ok p /\ arranged p /\ ready_resources (sp_resources p) /\ project_no_lists (sp_screens p).
Proof.
  destruct (project_try_from rnd0 (v96 " " "")) as [p| |] eqn:E; [|exfalso; vm_compute in E; discriminate|exfalso; vm_compute in E; discriminate]. exists p. split; [reflexivity|]. vm_compute in E. injection E as <-. split; [|split].
  - split; [constructor; [|constructor]|split; [constructor|split; repeat constructor; cbn; tauto]]. split; [reflexivity|]. split; [repeat constructor; vm_compute; reflexivity|]. split; [|split].
    + intros a e b X Y. destruct a as [|? [|? ?]]; try discriminate. injection X as <- <-. destruct Y as [(o & [] & _)|(kv & [] & _)].
    + right. eexists. eexists. split; [reflexivity|]. split; [reflexivity|]. split; [reflexivity|]. intros x [].
    + unfold layout_ok; set (x := fids _). vm_compute in x. subst x. split; [|intros [X|[X|[]]]; discriminate X]. constructor; [intros [X|[]]; discriminate X|]. constructor; [intros []|constructor].
  - intros t m X. cbn [resources_of In sp_resources] in X. destruct X as [X|[X|[X|[]]]]; injection X as <- <-; split; constructor.
  - repeat constructor.
Qed.
