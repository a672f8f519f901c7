(** C110: a project that was loaded with nothing in the logic file about some of its screens is converted and read again
    (/repo/src/api/mod.rs L303-450, in particular L353-356, and L487-773). C109_again asks that each screen has the Java name that belongs to its layout; a
    screen without logic is loaded with the name of its layout instead. *)
From Verif Require Import Base Str M_Color M_Date M_Raw M_Project M_File M_Library M_Resource M_View M_Logic M_Parsed A_Block A_View A_Screen A_Project
  SpecBlock SpecView SpecScreen SpecProject SpecInto SpecSave SpecBack SpecSettle SpecResave SpecDate SpecTidy ViewTreeProofs ResFilesProofs CleanProofs ResaveProofs SaveProofs ApiProjectProofs BlankProofs LoadedProofs
  P_Files P_Project P_Parsed P_Block P_ApiProject P_Save P_Settle P_Resave P_Loaded.
From Coq Require Import Lia.

Lemma proper_plain rnd v p : project_try_from rnd v = Ok p -> arranged (proper_names p) -> plain_project (proper_names p).
Proof.
  intros H (A & B). apply project_read_clean in H. split; [|exact B]. rewrite Forall_forall in *. intros s I. specialize (A s I).
  apply in_map_iff in I as (s0 & <- & I). destruct (H s0 I) as (H1 & H2 & H3 & H4). destruct A as (K1 & K2 & K3 & K4 & K5).
  split; [exact K1|]. split; [exact H1|]. split; [exact H2|]. split; [exact H3|]. split; [|auto]. rewrite Forall_forall in *. intros l X. apply clean_code; [apply H4; exact X|apply K2; exact X].
Qed.
Lemma proper_given rnd v p : project_try_from rnd v = Ok p -> (all_given (sp_screens (proper_names p)) <-> project_no_lists (sp_screens p)).
Proof.
  intros H. apply (fun x => proj2 (C96_loaded _ _ _ x)) in H. rewrite <- H. unfold all_given, proper_names. cbn [sp_screens]. rewrite Forall_map. reflexivity.
Qed.
(** all that is written about the two projects is the same but for the logic *)
Definition set_logic (l : logic) (q : parsed_project) : parsed_project :=
  {| pp_project := pp_project q; pp_file := pp_file q; pp_library := pp_library q; pp_resource := pp_resource q; pp_view := pp_view q; pp_logic := l; pp_resource_files := pp_resource_files q |}.
Lemma into_java p q' : project_into (proper_names p) = Ok q' -> exists l, project_into p = Ok (set_logic l q').
Proof.
  unfold project_into. destruct (put_screens (sp_screens (proper_names p)) [] [] []) as [[[L' a] b]| |] eqn:E; cbn [bind]; try discriminate.
  apply (put_java (fun s => view_name_to_logic (sc_layout_name s)) (sp_screens p) []) in E as (L & E). rewrite E. cbn [bind]. unfold proper_names. cbn [sp_automatic sp_resources sp_screens sp_custom_views sp_libraries sp_custom_icon].
  destruct (put_resources _ (re_images _) _) as [[im imf]| |]; cbn [bind]; try discriminate. destruct (put_resources _ (re_sounds _) _) as [[so sof]| |]; cbn [bind]; try discriminate.
  destruct (put_resources _ (re_fonts _) _) as [[fo fof]| |]; cbn [bind]; try discriminate. intros [= <-]. exists L. unfold set_logic. cbn. rewrite map_map. reflexivity.
Qed.
Lemma try_java rnd q l ss : take_screens (f_activities (pp_file q)) (vw_layouts (pp_view q)) l (vw_fabs (pp_view q)) =
    rmap (rename_result ss) (take_screens (f_activities (pp_file q)) (vw_layouts (pp_view q)) (pp_logic q) (vw_fabs (pp_view q))) ->
  project_try_from rnd (set_logic l q) = rmap (fun p' => set_screens (renamed ss (sp_screens p')) p') (project_try_from rnd q).
Proof.
  intros E. unfold project_try_from, set_logic. cbn [pp_project pp_file pp_library pp_resource pp_view pp_logic pp_resource_files]. cbv zeta. rewrite E. clear E.
  destruct (take_screens _ _ _ _) as [[s y]| |]; cbn [rmap bind]; try reflexivity. unfold rename_result. cbn [fst snd].
  repeat (match goal with |- bind ?x _ = _ => destruct x; cbn [bind rmap]; try reflexivity end).
Qed.
(** the names the screens of a loaded project can have *)
Lemma names_either mv ex rnd r p : loaded mv ex rnd r p ->
  forall s, In s (sp_screens p) -> sc_java_name s = view_name_to_logic (sc_layout_name s) \/ sc_java_name s = sc_layout_name s /\ no_logic s.
Proof.
  intros L s I. destruct (C109_names _ _ _ _ _ L) as (f & lg & _ & _ & _ & N). apply in_split in I as (a & b & E). specialize (N a s b E). cbv zeta in N. destruct N as [N1 N2].
  set (j := view_name_to_logic (sc_layout_name s)) in *.
  assert (DE : forall x y : str, {x = y} + {x <> y}) by (intros x y; destruct (str_eqb_spec x y); auto).
  destruct (in_dec DE j (map fst lg)) as [M1|M1]; [|auto]. destruct (in_dec DE j (map (fun x => view_name_to_logic (sc_layout_name x)) a)) as [M2|M2]; auto.
Qed.
Lemma renamed_same l : forall ss, Forall2 same_screen (map (fun s => settle_screen (with_java (view_name_to_logic (sc_layout_name s)) s)) l) ss -> Forall2 same_screen (map settle_screen l) (renamed l ss).
Proof.
  induction l as [|s l IH]; intros ss F; inversion F as [|? t ? ss' S F' E1 E2]; subst; cbn; constructor; [|apply IH; exact F'].
  destruct S as ((S1 & S2 & S3) & S4 & S5 & S6). cbn in *. split; [|split; [exact S4|split; [exact S5|exact S6]]]. split; [exact S1|]. split; [reflexivity|exact S3].
Qed.

(** Asked is what C109_again asks when each screen has the Java name that belongs to its layout, and that no layout is called like the Java name of a
    screen. Then the screens without logic come back as they were, under the names of their layouts. *)
Theorem C110_again mv ex rnd rnd' r p : loaded mv ex rnd r p -> rp_resource_files r <> None -> arranged (proper_names p) ->
  (forall s t, In s (sp_screens p) -> In t (sp_screens p) -> view_name_to_logic (sc_layout_name s) <> sc_layout_name t) ->
  exists q, project_into p = Ok q /\ project_try_from rnd' q <> Panic /\
    ((exists p', project_try_from rnd' q = Ok p') <-> project_no_lists (sp_screens p)) /\
    forall p', project_try_from rnd' q = Ok p' -> comes_back (settle p) p'.
Proof.
  intros L RF A D. pose proof (loaded_resources _ _ _ _ _ L) as RR. pose proof (names_either _ _ _ _ _ L) as NE. destruct L as (v & H & K). pose proof (given_files _ _ _ _ _ _ H K RF) as Au.
  pose proof (proper_given _ _ _ K) as PG. pose proof (proper_plain _ _ _ K A) as PP.
  destruct (C95_memory rnd' (proper_names p) PP RR) as (q' & W' & N1 & N2 & N3).
  destruct (into_java p q' W') as (l & W). exists (set_logic l q'). split; [exact W|].
  pose proof (into_inv _ _ W) as (lays & ? & ? & ? & PS & _). pose proof (into_inv _ _ W') as (lays' & ? & ? & ? & PS' & _ & _ & _ & _ & _ & _ & FA & _).
  destruct A as (_ & _ & NL & NJ). cbn [proper_names sp_screens] in NL, NJ, FA, PS'. rewrite map_map in NL, NJ, FA. cbn [with_java sc_layout_name sc_java_name] in NL, NJ.
  change (map (fun x => activity_of (with_java (view_name_to_logic (sc_layout_name x)) x)) (sp_screens p)) with (map activity_of (sp_screens p)) in FA.
  assert (NL1 : NoDup (map sc_layout_name (sp_screens p))) by (apply NoDup_app_inv in NL; tauto).
  assert (NJ1 : NoDup (map sc_java_name (sp_screens p))).
  { apply (nodup_either (fun s => view_name_to_logic (sc_layout_name s)) sc_layout_name); auto. intros s I. destruct (NE s I) as [X|[X _]]; auto. }
  cbn [set_logic pp_logic] in PS. apply put_screens_get in PS as (_ & O & G & _). specialize (G NJ1). apply put_screens_get in PS' as (_ & _ & G' & _). rewrite map_map in G'. specialize (G' NJ).
  assert (T : project_try_from rnd' (set_logic l q') = rmap (fun p' => set_screens (renamed (sp_screens p) (sp_screens p')) p') (project_try_from rnd' q')).
  { apply try_java. rewrite FA. apply lockstep; [exact NJ|]. apply Forall_forall. intros s I. unfold either_way. cbv zeta.
    destruct (G' _ (in_map (fun s => with_java (view_name_to_logic (sc_layout_name s)) s) _ _ I)) as (lg & G1 & G2). change (sc_java_name (with_java ?j ?x)) with j in G2.
    destruct (NE s I) as [X|[X Y]].
    - left. destruct (G s I) as (lg' & G3 & G4). rewrite X in G4. rewrite <- X in G1 at 1. rewrite with_java_same in G1. rewrite G3 in G1. injection G1 as <-. exists lg'. split; [exact G4|]. split; [exact G2|].
      unfold screen_logic_of, to_screen_logic in G3. destruct (put_events _ _) as [[es bc]| |]; cbn [bind] in G3; try discriminate. destruct (put_more_blocks _ _) as [[ms bc']| |]; cbn [bind] in G3; try discriminate. injection G3 as <-. reflexivity.
    - right. rewrite (blank_written _ _ Y) in G1. injection G1 as <-. split; [|split; [exact X|exact G2]]. rewrite (proj1 (O _)); [reflexivity|].
      intros J. apply in_map_iff in J as (t & J1 & J2). destruct (NE t J2) as [Z|[Z Z2]].
      + assert (E : s = t). { clear - NJ J1 Z I J2. rewrite Z in J1. revert NJ I J2. generalize (sp_screens p). induction l as [|a l IH]; cbn; [tauto|]. intros ND I J. apply NoDup_cons_iff in ND as [N ND].
          assert (Q : forall u, In u l -> In (view_name_to_logic (sc_layout_name u)) (map (fun s => view_name_to_logic (sc_layout_name s)) l)) by (intros u; apply (in_map (fun s => view_name_to_logic (sc_layout_name s)))).
          destruct I as [<-|I], J as [<-|J]; auto; exfalso; apply N; [rewrite <- J1|rewrite J1]; auto. }
        subst t. apply (D s s I I). congruence.
      + apply (D s t I J2). congruence. }
  rewrite T. split; [destruct (project_try_from rnd' q'); cbn [rmap]; congruence|]. split; [split|].
  - intros (p' & X). apply PG. destruct (project_try_from rnd' q') as [p2| |]; cbn [rmap] in X; try discriminate. apply (N2 p2). reflexivity.
  - intros X. apply PG in X. destruct (N3 X) as (N4 & _). destruct (N4 Au) as (p2 & -> & _). cbn [rmap]. eauto.
  - intros p' X. destruct (project_try_from rnd' q') as [p2| |] eqn:Q; cbn [rmap] in X; try discriminate. injection X as <-. destruct (N3 (N2 p2 eq_refl)) as (N4 & _). destruct (N4 Au) as (p3 & E & C). injection E as <-.
    destruct C as (C1 & C2 & C3). split; [|split; [exact C2|exact C3]]. unfold same_project in *. cbn [settle set_screens sp_screens proper_names] in *. rewrite map_map in C1. intuition auto. now apply renamed_same.
Qed.
Print Assumptions C110_again.

(** the project of C109 with a second screen, about which the logic file has nothing *)
Definition raw110 (n : str) : raw_project :=
  {| rp_project := rp_project raw109;
     rp_file := file_reconstruct {| f_activities := [item109; {| fi_filename := n; fi_type := FtActivity; fi_keyboard := KbHidden; fi_options := fi_options item109; fi_orientation := OrBoth; fi_theme := ThNone |}]; f_custom_views := [] |};
     rp_library := rp_library raw109; rp_resource := rp_resource raw109; rp_view := []; rp_logic := rp_logic raw109; rp_resource_files := rp_resource_files raw109 |}.
Example C110_example : exists p, loaded true (fun _ => true) rnd0 (raw110 (lit "other")) p /\ arranged (proper_names p) /\ project_no_lists (sp_screens p) /\
  map sc_java_name (sp_screens p) = [lit "MainActivity"; lit "other"] /\
  (forall s t, In s (sp_screens p) -> In t (sp_screens p) -> view_name_to_logic (sc_layout_name s) <> sc_layout_name t).
Proof.
  destruct (parse_from true (fun _ => true) (raw110 (lit "other"))) as [v| |] eqn:H; [|vm_compute in H; discriminate|vm_compute in H; discriminate].
  destruct (project_try_from rnd0 v) as [p| |] eqn:K; [|vm_compute in H; injection H as <-; vm_compute in K; discriminate|vm_compute in H; injection H as <-; vm_compute in K; discriminate].
  exists p. split; [exists v; now split|]. vm_compute in H; injection H as <-; vm_compute in K; injection K as <-. split; [|split; [|split]].
  - split; [constructor; [|constructor; [|constructor]]|split; [constructor|split; (constructor; [intros [X|[]]; discriminate X|constructor; [intros []|constructor]])]].
    + split; [reflexivity|]. split; [repeat constructor; vm_compute; reflexivity|]. split; [|split].
      * intros a e b X Y. destruct a as [|? [|? ?]]; try discriminate. injection X as <- <-. destruct Y as [(o & [] & _)|(kv & [] & _)].
      * right. eexists. eexists. split; [reflexivity|]. split; [reflexivity|]. split; [reflexivity|]. intros x [].
      * unfold layout_ok; set (x := fids _). vm_compute in x. subst x. split; [repeat constructor; cbn; tauto|]. cbn. tauto.
    + split; [reflexivity|]. split; [constructor|]. split; [|split].
      * intros a e b X Y. destruct a; discriminate X.
      * left. intros x [].
      * unfold layout_ok; set (x := fids _). vm_compute in x. subst x. split; [repeat constructor; cbn; tauto|]. cbn. tauto.
  - repeat constructor.
  - reflexivity.
  - intros s t [<-|[<-|[]]] [<-|[<-|[]]]; vm_compute; discriminate.
Qed.
(** a layout without logic that is called like the Java name of another screen: saving replaces the logic of that screen by none, and its code is gone *)
Theorem C110_lost :
  match parse_from true (fun _ => true) (raw110 (lit "MainActivity")) with
  | Ok v =>
    match project_try_from rnd0 v with
    | Ok p => map (fun s => length (sc_events s)) (sp_screens p) = [1; 0]%nat /\
        match project_into p with
        | Ok q => match project_try_from rnd0 q with Ok p' => map (fun s => length (sc_events s)) (sp_screens p') = [0; 0]%nat | _ => False end
        | _ => False
        end
    | _ => False
    end
  | _ => False
  end.
Proof. vm_compute. split; reflexivity. Qed.
Print Assumptions C110_lost.
