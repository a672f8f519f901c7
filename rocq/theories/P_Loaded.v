(** C109: a project that was loaded from its files can be saved (/repo/src/parser/mod.rs L153-240, /repo/src/api/mod.rs L303-450, L487-773). C93 says
    that saving panics on code with holes and on resource files without a name; nothing that is loaded has either, whatever the files contained. *)
From Verif Require Import Base Str M_Color M_Date M_Raw M_Project M_File M_Library M_Resource M_View M_Logic M_Parsed A_Block A_View A_Screen A_Project
  SpecBlock SpecView SpecScreen SpecProject SpecInto SpecSave SpecBack SpecSettle SpecResave SpecDate SpecTidy ResFilesProofs RereadProofs CleanProofs ResaveProofs SaveProofs ApiProjectProofs IntoProofs LoadedProofs
  P_Files P_Project P_Parsed P_Block P_ApiProject P_Loading P_Save P_Into P_Settle P_Resave P_Reopen.
From Coq Require Import Lia Permutation.

Lemma class_called ex w t n : wrapper_class ex w t n -> file_called w n.
Proof.
  intros C. apply called_iff. unfold full_name. destruct C as [p pre folder mid name t E C _ _|id name t|id name t]; cbn [get_full_name]; try reflexivity.
  assert (F : file_name_of (components p) = Some name); [|now rewrite F]. rewrite C. unfold file_name_of. change [Normal folder; mid; Normal name] with ([Normal folder; mid] ++ [Normal name]).
  rewrite app_assoc, rev_app_distr. reflexivity.
Qed.
Lemma taken_called ex t rnd l : t <> RCustomIcon -> forall i rf ws, (forall m, rf = Some m -> forall n w, sget n m = Some w -> wrapper_class ex w t n) ->
  take_resources t rnd i l rf = Ok ws -> Forall (fun kw => exists n, file_called (snd kw) n) ws.
Proof.
  intros T. induction l as [|it l IH]; intros i rf ws C; cbn [take_resources]; [intros [= <-]; constructor|].
  destruct rf as [m|]; cbn [bind].
  - destruct (sget (ri_full_name it) m) as [w|] eqn:G; cbn [ok_or bind]; [|discriminate]. destruct (take_resources _ _ _ _ _) as [ws'| |] eqn:R; cbn [bind]; try discriminate. intros [= <-].
    constructor; [cbn [snd]; exists (ri_full_name it); eapply class_called; eauto|]. eapply IH; [|exact R]. intros m' [= <-] n w' G'. apply (C m eq_refl).
    destruct (str_eqb_spec n (ri_full_name it)) as [->|E]; [now rewrite sget_remove_same in G'|]. now rewrite sget_remove_other in G'.
  - destruct (take_resources _ _ _ _ _) as [ws'| |] eqn:R; cbn [bind]; try discriminate. intros [= <-].
    constructor; [cbn [snd]; eexists; reflexivity|]. eapply IH; [|exact R]. discriminate.
Qed.

(** the resources that were loaded: each id once, each file with a name *)
Lemma loaded_resources mv ex rnd r p : loaded mv ex rnd r p -> ready_resources (sp_resources p).
Proof.
  intros (v & H & K). pose proof (parsed_filed _ _ _ _ H) as F. apply try_from_inv in K as (? & im & so & fo & _ & _ & _ & _ & _ & _ & T1 & T2 & T3 & R & _). rewrite R.
  apply (taken_called ex) in T1; [|discriminate|intros m E; destruct (pp_resource_files v) as [f|]; [|discriminate]; injection E as <-; apply (F f eq_refl)].
  apply (taken_called ex) in T2; [|discriminate|intros m E; destruct (pp_resource_files v) as [f|]; [|discriminate]; injection E as <-; apply (F f eq_refl)].
  apply (taken_called ex) in T3; [|discriminate|intros m E; destruct (pp_resource_files v) as [f|]; [|discriminate]; injection E as <-; apply (F f eq_refl)].
  assert (X : forall ws : list (str * res_wrapper), Forall (fun kw => exists n, file_called (snd kw) n) ws -> NoDup (map fst (scollect ws)) /\ Forall (fun kv => exists n, full_name (snd kv) n) (scollect ws)).
  { intros ws W. split; [apply collected_nodup|]. apply Forall_forall. intros kv I. apply in_scollect in I. rewrite Forall_forall in W. destruct (W kv I) as (n & C). exists n. now apply called_iff. }
  intros t m I. unfold resources_of in I. cbn in I. destruct I as [I|[I|[I|[]]]]; injection I as <- <-; auto.
Qed.
(** Whatever six texts and resource files a project was loaded from, it can be saved; only code of two thousand million blocks has no numbers for them. *)
Theorem C109_saved mv ex rnd r p : loaded mv ex rnd r p -> Forall ids_fit (SpecInto.codes p) -> exists r', project_into_raw p r'.
Proof.
  intros (v & H & K) SM. assert (OK : exists q, project_into p = Ok q).
  { apply into_ok_iff; [exact SM|]. split.
    - apply project_read_clean in K. unfold SpecInto.codes. apply Forall_flat_map. eapply Forall_impl; [|exact K]. intros s (_ & _ & _ & C). eapply Forall_impl; [|exact C].
      intros l L. now destruct (clean_plain l L).
    - pose proof (loaded_resources mv ex rnd r p (ex_intro _ v (conj H K))) as RR. unfold resource_wrappers. apply Forall_map, Forall_forall. intros kw I. rewrite !in_app_iff in I.
      assert (X : exists t m, In (t, m) (resources_of (sp_resources p)) /\ In kw m) by (destruct I as [I|[I|I]]; [exists RImage|exists RSound|exists RFont]; eexists; (split; [|exact I]); cbn; auto).
      destruct X as (t & m & X1 & X2). destruct (RR t m X1) as (_ & Y). rewrite Forall_forall in Y. destruct (Y kw X2) as (n & Z). exists n. now apply called_iff. }
  destruct OK as (q & W). apply parse_from_ok in H as (H & _). apply project_read in H as (RG & dt & D). rewrite (try_from_meta _ _ _ K) in RG, D.
  destruct (date_written q dt) as (r' & W').
  - pose proof W as W0. apply into_inv in W0 as (? & ? & ? & ? & _ & _ & _ & _ & _ & E & _). rewrite E. exact RG.
  - pose proof W as W0. apply into_inv in W0 as (? & ? & ? & ? & _ & _ & _ & _ & _ & E & _). rewrite E. exact D.
  - exists r', q. now split.
Qed.
Print Assumptions C109_saved.

(** If no id occurs twice, the list of resources is written as it was: each id with its file name, in order. (C51 asks that each resource file is kept
    under its own name; that is so for files that were read.) *)
Theorem C109_resources mv ex rnd r v p q : parse_from mv ex r = Ok v -> project_try_from rnd v = Ok p -> project_into p = Ok q ->
  forall items, In items [rs_images; rs_sounds; rs_fonts] -> NoDup (map ri_name (items (pp_resource v))) ->
  map name_pair (items (pp_resource q)) = map name_pair (items (pp_resource v)).
Proof.
  intros H K W items I ND. pose proof (parsed_filed _ _ _ _ H) as F.
  assert (N0 : forall t m, (forall n w, sget n m = Some w -> wrapper_class ex w t n) -> files_named m).
  { intros t m C n w G. apply called_iff. eapply class_called. now apply C. }
  destruct I as [<-|[<-|[<-|[]]]]; (eapply C51_partial; [exact K|exact W| |exact ND|]); [left; reflexivity| |right; left; reflexivity| |right; right; left; reflexivity|];
    intros f E; eapply N0; apply (F f E).
Qed.
Print Assumptions C109_resources.

Lemma given_files mv ex rnd r v p : parse_from mv ex r = Ok v -> project_try_from rnd v = Ok p -> rp_resource_files r <> None -> sp_automatic p = false.
Proof.
  intros H K RF. apply try_from_inv in K as (? & ? & ? & ? & _ & _ & _ & _ & _ & _ & _ & _ & _ & _ & _ & E). rewrite E. apply parse_from_ok in H as (_ & _ & _ & _ & _ & _ & H).
  destruct (rp_resource_files r) as [ws|]; [|congruence]. destruct H as (g & _ & ->). reflexivity.
Qed.
(** And what was written can be converted again, without a panic: if the names and layouts of the screens are in order, exactly if no list stands in the
    code, and then the project is the one that was loaded with its code settled (C95),
    with numbers in place of its resource files and without its icon. *)
Theorem C109_again mv ex rnd rnd' r p : loaded mv ex rnd r p -> rp_resource_files r <> None -> arranged p ->
  exists q, project_into p = Ok q /\ project_try_from rnd' q <> Panic /\
    ((exists p', project_try_from rnd' q = Ok p') <-> project_no_lists (sp_screens p)) /\
    forall p', project_try_from rnd' q = Ok p' -> comes_back (settle p) p'.
Proof.
  intros L RF A. pose proof (loaded_resources _ _ _ _ _ L) as RR. destruct L as (v & H & K).
  pose proof (given_files _ _ _ _ _ _ H K RF) as Au.
  destruct (C96_memory rnd v rnd' p K A RR) as (q & W & N1 & N2 & N3). exists q. split; [exact W|]. split; [exact N1|]. split; [split|].
  - intros (p' & X). now apply (N2 p').
  - intros X. destruct (N3 X Au) as (p' & Y & _). eauto.
  - intros p' X. destruct (N3 (N2 p' X) Au) as (p2 & Y & Z). rewrite X in Y. injection Y as <-. exact Z.
Qed.
Print Assumptions C109_again.

(** what is asked is all that saving and opening again asks for (C85) *)
Lemma loaded_tidy mv ex rnd r p : loaded mv ex rnd r p -> arranged p ->
  (Forall screen_tidy (sp_screens p) <-> Forall screen_fits (sp_screens p)) /\
  (Forall custom_tidy (sp_custom_views p) <-> Forall (fun v => file_name (cv_res_name v) /\ views_fit (cv_layout v)) (sp_custom_views p)).
Proof.
  intros (v & H & K) (A & _). apply parse_from_ok in H as (_ & _ & _ & _ & HV & HL & _). pose proof (project_read_good _ _ _ _ _ HL K) as G. pose proof (project_read_clean _ _ _ K) as C.
  destruct (project_views_good _ _ _ _ HV K) as [V W]. split; rewrite !Forall_forall in *.
  - assert (E : forall s, In s (sp_screens p) -> (screen_fits s <-> screen_tidy s)) by (intros s I; apply tidy_fits; auto; apply (A s I)).
    split; intros F s I; now apply (E s I), F.
  - split; intros F c I; destruct (F c I) as [F1 F2]; (split; [exact F1|]); destruct (W c I) as (l & L1 & L2); now apply (layout_fits _ _ L2 L1).
Qed.
(** The same through the files. Nothing is asked of the metadata, colours, resources and code of a loaded project (its date can be written, its numbers
    and colours fit); what is asked of its screens is that their names are in order and the floats of their layouts are finite. *)
Theorem C109_files mv ex rnd rnd' r p : loaded mv ex rnd r p -> rp_resource_files r <> None -> arranged p -> Forall screen_tidy (sp_screens p) ->
  Forall custom_tidy (sp_custom_views p) ->
  exists dt, datetime_of_timestamp (i64_of_u64 (md_time_created (sp_metadata p))) = Some dt /\ (exists r', project_into_raw p r') /\
  forall r' t, project_into_raw p r' -> date_value (date_text dt) t -> last_only p ->
    exists v', parse_from mv ex r' = Ok v' /\ project_try_from rnd' v' <> Panic /\
      ((exists p', project_try_from rnd' v' = Ok p') <-> project_no_lists (code_kept (sp_screens p))) /\
      forall p', project_try_from rnd' v' = Ok p' -> comes_back (settle (remains (created_at t p))) p'.
Proof.
  intros L RF A FS FC. destruct (loaded_tidy _ _ _ _ _ L A) as [TS TC]. apply TS in FS. apply TC in FC. pose proof (loaded_resources _ _ _ _ _ L) as RR. destruct L as (v & H & K). pose proof (given_files _ _ _ _ _ _ H K RF) as Au.
  apply parse_from_ok in H as (H & _). apply project_read in H as (RG & dt & D). rewrite (try_from_meta _ _ _ K) in RG, D. cbn [pj_date_created] in D.
  exists dt. split; [exact D|]. assert (PF : project_fits p dt).
  { unfold in_range in RG. cbn in RG. unfold project_fits. cbn zeta. rewrite !Forall_cons_iff. intuition auto. }
  destruct (C96_files mv ex rnd v rnd' p dt K A RR Au PF) as (W & O). split; [exact W|]. intros r' t R T LO. destruct (O r' t R T LO) as (v' & P & N1 & N2 & N3).
  exists v'. split; [exact P|]. split; [exact N1|]. split; [split|].
  - intros (p' & X). now apply (N2 p').
  - intros X. destruct (N3 X) as (p' & Y & _). eauto.
  - intros p' X. destruct (N3 (N2 p' X)) as (p2 & Y & Z). rewrite X in Y. injection Y as <-. exact Z.
Qed.
Print Assumptions C109_files.

(** The screens are the activities of the file list, in order. Each has the Java name that belongs to its layout if the logic file has something under
    that name and no screen before has taken it; otherwise it has no logic and its Java name is the name of its layout
    (/repo/src/api/mod.rs L353-356, [new_empty] with the layout name). *)
Theorem C109_names mv ex rnd r p : loaded mv ex rnd r p ->
  exists f lg, file_parse (rp_file r) = Ok f /\ logic_parse mv (rp_logic r) = Ok lg /\ map sc_layout_name (sp_screens p) = map fi_filename (f_activities f) /\
  forall a s b, sp_screens p = a ++ s :: b -> let j := view_name_to_logic (sc_layout_name s) in
    (In j (map fst lg) /\ ~ In j (map (fun x => view_name_to_logic (sc_layout_name x)) a) -> sc_java_name s = j) /\
    (~ In j (map fst lg) \/ In j (map (fun x => view_name_to_logic (sc_layout_name x)) a) -> sc_java_name s = sc_layout_name s /\ no_logic s).
Proof.
  intros (v & H & K). apply parse_from_ok in H as (_ & HF & _ & _ & _ & HL & _). exists (pp_file v), (pp_logic v). split; [exact HF|]. split; [exact HL|].
  apply LogicRereadProofs.logic_file_read in HL as [_ HL]. apply try_from_inv in K as (lays & ? & ? & ? & T & _).
  eapply take_screens_named; [exact T|]. eapply Forall_impl; [|exact HL]. intros kv X. apply X.
Qed.
Print Assumptions C109_names.

(** a project with code in which an argument is a block and another one too many, an image that is a file, and a sound under an id of its own *)
Definition item109 : file_item :=
  {| fi_filename := lit "main"; fi_type := FtActivity; fi_keyboard := KbHidden; fi_options := {| ao_toolbar := true; ao_fullscreen := false; ao_drawer := false; ao_fab := false |};
     fi_orientation := OrBoth; fi_theme := ThNone |}.
Definition raw109 : raw_project :=
  {| rp_project := match project_reconstruct (ex_project 1636974733) with Ok s => s | _ => [] end;
     rp_file := file_reconstruct {| f_activities := [item109]; f_custom_views := [] |}; rp_library := library_reconstruct ex_library;
     rp_resource := resource_reconstruct {| rs_images := [{| ri_full_name := lit "x.png"; ri_name := lit "x"; ri_type := 1 |}];
                                            rs_sounds := [{| ri_full_name := lit "s.mp3"; ri_name := lit "x"; ri_type := 7 |}]; rs_fonts := [] |};
     rp_view := []; rp_logic := join 10 (lit "@MainActivity.java_onCreate_initializeLogic" :: map block_reconstruct ex_cont);
     rp_resource_files := Some [WStringId (lit "a") (lit "s.mp3") RSound; WPath (lit "images/601/x.png")] |}.
Example C109_example :
  match parse_from true (fun _ => true) raw109 with
  | Ok v =>
    match project_try_from rnd0 v with
    | Ok p => SpecInto.codes p = [ex_tree] /\ get_resource (lit "x") (sp_resources p) = Some (WPath (lit "images/601/x.png"), RImage) /\
        match project_into p with
        | Ok q => map name_pair (rs_images (pp_resource q) ++ rs_sounds (pp_resource q)) = [(lit "x", lit "x.png"); (lit "x", lit "s.mp3")] /\ exists r', project_into_raw p r'
        | _ => False
        end
    | _ => False
    end
  | _ => False
  end.
Proof.
  destruct (parse_from true (fun _ => true) raw109) as [v| |] eqn:H; [|vm_compute in H; discriminate|vm_compute in H; discriminate].
  destruct (project_try_from rnd0 v) as [p| |] eqn:K; [|vm_compute in H; injection H as <-; vm_compute in K; discriminate|vm_compute in H; injection H as <-; vm_compute in K; discriminate].
  assert (C : SpecInto.codes p = [ex_tree]) by (vm_compute in H; injection H as <-; vm_compute in K; injection K as <-; vm_compute; reflexivity).
  split; [exact C|]. destruct (C109_saved true (fun _ => true) rnd0 raw109 p) as (r' & W); [exists v; now split| |].
  { rewrite C. constructor; [|constructor]. vm_compute. reflexivity. }
  split; [vm_compute in H; injection H as <-; vm_compute in K; injection K as <-; vm_compute; reflexivity|].
  destruct (project_into p) as [q| |] eqn:Q; [|destruct W as (q & W & _); discriminate (eq_trans (eq_sym Q) W)|destruct W as (q & W & _); discriminate (eq_trans (eq_sym Q) W)].
  split; [|exists r'; exact W]. vm_compute in H; injection H as <-; vm_compute in K; injection K as <-; vm_compute in Q; injection Q as <-; vm_compute; reflexivity.
Qed.
(** the project of the example is in order and fits its files, so it is converted and opened again too *)
Example C109_again_example : exists p, loaded true (fun _ => true) rnd0 raw109 p /\ arranged p /\ project_no_lists (sp_screens p) /\
  Forall screen_tidy (sp_screens p) /\ sp_custom_views p = [] /\ last_only p.
Proof.
  destruct (parse_from true (fun _ => true) raw109) as [v| |] eqn:H; [|vm_compute in H; discriminate|vm_compute in H; discriminate].
  destruct (project_try_from rnd0 v) as [p| |] eqn:K; [|vm_compute in H; injection H as <-; vm_compute in K; discriminate|vm_compute in H; injection H as <-; vm_compute in K; discriminate].
  exists p. split; [exists v; now split|]. vm_compute in H; injection H as <-; vm_compute in K; injection K as <-. split.
  - split; [constructor; [|constructor]|split; [constructor|split; repeat constructor; cbn; tauto]]. split; [reflexivity|]. split; [repeat constructor; vm_compute; reflexivity|]. split; [|split].
    + intros a e b X Y. destruct a as [|? [|? ?]]; try discriminate. injection X as <- <-. destruct Y as [(o & [] & _)|(kv & [] & _)].
    + right. eexists. eexists. split; [reflexivity|]. split; [reflexivity|]. split; [reflexivity|]. intros x [].
    + unfold layout_ok; set (x := fids _). vm_compute in x. subst x. split; [repeat constructor; cbn; tauto|]. cbn. tauto.
  - split; [repeat constructor|]. split; [constructor; [|constructor]|split; [reflexivity|]].
    + split; [split; cbn; intuition discriminate|]. split; [constructor|]. split; [discriminate|]. split; [|split]; [| |split; [|split; [|split]]].
      * intros a k x E. destruct a; discriminate E.
      * intros a k x E. destruct a; discriminate E.
      * constructor; [|constructor]. split.
        -- intros k [[_ ->]|[E _]]; [|elim E; reflexivity]. apply plain_container; try reflexivity; repeat (constructor; [not_end|]); constructor.
        -- ends.
      * constructor.
      * discriminate.
      * intros a k m E. destruct a; discriminate E.
    + intros a l m b E. destruct a as [|? [|? ?]]; discriminate E.
Qed.
(** the same project with and without its logic file *)
Example C109_names_example :
  let names l := match parse_from true (fun _ => true) {| rp_project := rp_project raw109; rp_file := rp_file raw109; rp_library := rp_library raw109; rp_resource := rp_resource raw109;
                          rp_view := rp_view raw109; rp_logic := l; rp_resource_files := rp_resource_files raw109 |} with
                 | Ok v => match project_try_from rnd0 v with Ok p => map (fun s => (sc_layout_name s, sc_java_name s)) (sp_screens p) | _ => [] end
                 | _ => [] end in
  names (rp_logic raw109) = [(lit "main", lit "MainActivity")] /\ names [] = [(lit "main", lit "main")].
Proof. vm_compute. split; reflexivity. Qed.
