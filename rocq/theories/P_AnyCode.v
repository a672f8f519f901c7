(** Property C104: a project with any code, written and read again
    (/repo/src/api/mod.rs L303-450, L487-675, /repo/src/api/screen.rs L70-340, /repo/src/api/block.rs L60-420, /repo/src/parser/mod.rs L153-240). *)
From Coq Require Import Lia.
From Verif Require Import Base Str M_Color M_Date M_Raw M_Project M_File M_Library M_Resource M_View M_Logic M_Parsed A_Block A_View A_Screen A_Project
  SpecBlock SpecView SpecScreen SpecProject SpecLoad SpecSave SpecDate DateTextProofs BlockWriteProofs ScreenProofs ApiProjectProofs SaveProofs RemainProofs ResFilesProofs SettleProofs SettleSaveProofs
  P_Block P_Project P_View P_Logic P_Parsed P_Screen P_ApiProject P_Loading P_Save P_Back P_Settle P_Menu SpecBack SpecSettle SpecSpread SpecSaid SpecMenu SpecAnyCode AnyCodeProofs AnySaveProofs.

(** ** C104: what becomes of a project with any code *)
(** Any text, any name and a block in any place: only strings that are references to blocks, such as "@12", are left out.
    In memory: the project is read exactly if its code can be read (but for the resources, as in C46), and then it comes back with the code that C103 describes. *)
Theorem C104_memory rnd p : open_project p -> ready_resources (sp_resources p) -> exists q, project_into p = Ok q /\
  (forall p', project_try_from rnd q = Ok p' -> all_said (sp_screens p)) /\
  (all_said (sp_screens p) ->
    (sp_automatic p = false -> exists p', project_try_from rnd q = Ok p' /\ comes_back (project_back p) p') /\
    (sp_automatic p = true -> sp_resources p = resources_empty -> exists p', project_try_from rnd q = Ok p' /\ same_project (project_back p) p' /\
       sp_custom_icon p' = sp_custom_icon p /\ sp_resources p' = resources_empty) /\
    (sp_automatic p = true -> sp_resources p <> resources_empty -> exists id n t, project_try_from rnd q = Err (XMissingResourceFile id n t))).
Proof.
  intros PP RR. destruct (open_project_into p PP RR) as (q & H). exists q. split; [exact H|]. split; [intros p' K; eapply memory_said; eauto|].
  intros GA. destruct (said_memory_transfer p q PP RR GA H) as (RP2 & q2 & H2 & AL). destruct (C46_partial rnd (project_back p) RP2 RR) as (q' & H' & A & B & C).
  pose proof (eq_trans (eq_sym H2) H') as E. injection E as <-. rewrite (try_from_alike rnd q2 q AL). split; [|split].
  - intros Au. destruct (A Au) as (p' & K & S & I & F). exists p'. split; [exact K|]. split; [exact S|]. split; [exact I|exact F].
  - exact B.
  - exact C.
Qed.
Print Assumptions C104_memory.


(** ** Through the files *)
Lemma open_written p dt : open_project p -> ready_resources (sp_resources p) -> project_fits p dt -> exists r, project_into_raw p r.
Proof.
  intros PP RR PF. destruct (open_project_into p PP RR) as (q & H). pose proof (filed_typed p q dt (open_filed p PP) PF H) as T. destruct (C50_written q dt T) as (r & W). exists r, q. auto.
Qed.
(** the date and the view file are what they are with other code *)
Lemma open_outcome mv ex p dt r : open_project p -> ready_resources (sp_resources p) -> project_fits p dt -> project_into_raw p r ->
  (date_crash (date_text dt) -> parse_from mv ex r = Panic) /\
  (date_wrong (date_text dt) -> parse_from mv ex r = Err (PeProject tt)) /\
  forall t, date_value (date_text dt) t -> ~ last_only p -> exists e, parse_from mv ex r = Err (PeView e).
Proof.
  intros PP RR PF (q & H & W). destruct (open_blank_transfer mv ex p q dt r PP RR PF H W) as (RP2 & PF2 & r2 & (q2 & H2 & W2) & M).
  destruct (outcome_files mv ex _ q2 dt r2 RP2 PF2 H2 W2) as (O1 & O2 & O3). unfold last_only in *. rewrite blank_layouts in O3. split; [|split].
  - intros D. rewrite (O1 D) in M. destruct (parse_from mv ex r); tauto.
  - intros D. rewrite (O2 D) in M. destruct (parse_from mv ex r); try tauto. now subst.
  - intros t D L. destruct (O3 t D L) as (e & X). rewrite X in M. exists e. destruct (parse_from mv ex r); try tauto. now subst.
Qed.
Theorem C104_files mv ex rnd p dt : open_project p -> ready_resources (sp_resources p) -> sp_automatic p = false -> project_fits p dt ->
  (exists r, project_into_raw p r) /\
  forall r, project_into_raw p r ->
    (date_crash (date_text dt) -> parse_from mv ex r = Panic) /\
    (date_wrong (date_text dt) -> parse_from mv ex r = Err (PeProject tt)) /\
    forall t, date_value (date_text dt) t ->
      (~ last_only p -> exists e, parse_from mv ex r = Err (PeView e)) /\
      (last_only p -> exists v, parse_from mv ex r = Ok v /\
         (forall p', project_try_from rnd v = Ok p' -> all_said (code_kept (sp_screens p))) /\
         (all_said (code_kept (sp_screens p)) -> exists p', project_try_from rnd v = Ok p' /\ comes_back (project_back (remains (created_at t p))) p')).
Proof.
  intros PP RR A PF. split; [now apply (open_written p dt)|]. intros r R. destruct (open_outcome mv ex p dt r PP RR PF R) as (O1 & O2 & O3). split; [exact O1|]. split; [exact O2|].
  intros t TD. split; [exact (O3 t TD)|]. intros LO. destruct R as (q & H & W). destruct (open_blank_transfer mv ex p q dt r PP RR PF H W) as (RP2 & PF2 & r2 & R2 & M).
  assert (LO2 : last_only (set_screens (map blank (sp_screens p)) p)) by (unfold last_only; rewrite blank_layouts; exact LO).
  destruct (C86_outcome mv ex rnd _ dt RP2 RR A PF2) as (_ & O). destruct (O r2 R2) as (_ & _ & OV). destruct (proj2 (OV t TD) LO2) as (p2 & (v2 & K2 & _) & _). clear O OV. rewrite K2 in M.
  destruct (parse_from mv ex r) as [v|e|] eqn:K; [|contradiction|contradiction]. exists v. split; [reflexivity|]. split; [intros p' L; eapply loaded_said; eauto|].
  intros GA. destruct (SaveProofs.first_without (sp_screens p)) as (a & b & AB & CA & CB). pose proof GA as GA0. rewrite AB in GA0. apply (proj1 (all_said_split a b CA CB)) in GA0.
  destruct (said_transfer mv ex p q dt r a b PP RR PF AB CA CB GA0 H W) as (RP3 & PF3 & r3 & R3 & M3). rewrite K in M3.
  destruct (C86_outcome mv ex rnd _ dt RP3 RR A PF3) as (_ & O). destruct (O r3 R3) as (_ & _ & OV). destruct (proj2 (OV t TD)) as (p' & (v3 & K3 & L3) & CBK).
  { unfold last_only, all_layouts, kept_said. cbn [set_screens sp_screens sp_custom_views]. rewrite map_app, !map_map. change (fun x => sc_layout (screen_back x)) with sc_layout. change (fun x => sc_layout (blank x)) with sc_layout.
    rewrite <- map_app, <- AB. exact LO. }
  rewrite K3 in M3. exists p'. split; [now rewrite (try_from_alike rnd v3 v M3)|]. now rewrite <- (said_remains p a b t AB CA CB).
Qed.
Print Assumptions C104_files.
(** with automatic resources: as in C86, if the code can be read *)
Theorem C104_automatic mv ex rnd p dt : open_project p -> ready_resources (sp_resources p) -> sp_automatic p = true -> project_fits p dt -> all_said (code_kept (sp_screens p)) ->
  forall r, project_into_raw p r -> forall t, date_value (date_text dt) t -> last_only p ->
    ((exists w, sp_custom_icon p = Some w /\ forall ty n, ~ wrapper_class ex w ty n) -> exists e, parse_from mv ex r = Err (PeResourceFiles e)) /\
    (forall i rs, icon_outcome ex (sp_custom_icon p) (sp_resources p) i rs <->
       exists p', loaded mv ex rnd r p' /\ same_project (project_back (remains (created_at t p))) p' /\ sp_custom_icon p' = i /\ sp_resources p' = rs) /\
    ((forall w, sp_custom_icon p = Some w -> exists ty n, wrapper_class ex w ty n) -> (forall i rs, ~ icon_outcome ex (sp_custom_icon p) (sp_resources p) i rs) ->
       exists v id n ty, parse_from mv ex r = Ok v /\ project_try_from rnd v = Err (XMissingResourceFile id n ty)).
Proof.
  intros PP RR A PF GA r (q & H & W) t TD LO. destruct (SaveProofs.first_without (sp_screens p)) as (a & b & AB & CA & CB). pose proof GA as GA0. rewrite AB in GA0. apply (proj1 (all_said_split a b CA CB)) in GA0.
  destruct (said_transfer mv ex p q dt r a b PP RR PF AB CA CB GA0 H W) as (RP3 & PF3 & r3 & R3 & M3).
  destruct (C86_automatic mv ex rnd _ dt RP3 RR A PF3) as (_ & O). destruct (O r3 R3) as (_ & _ & OV). destruct (proj2 (OV t TD)) as (O1 & O2 & O3).
  { unfold last_only, all_layouts, kept_said. cbn [set_screens sp_screens sp_custom_views]. rewrite map_app, !map_map. change (fun x => sc_layout (screen_back x)) with sc_layout. change (fun x => sc_layout (blank x)) with sc_layout.
    rewrite <- map_app, <- AB. exact LO. }
  clear O OV. rewrite (said_remains p a b t AB CA CB) in O2. cbn [kept_said set_screens sp_custom_icon sp_resources] in O1, O2, O3.
  assert (LE : forall p', loaded mv ex rnd r p' <-> loaded mv ex rnd r3 p').
  { intros p'. unfold loaded. destruct (parse_from mv ex r3) as [v3|e3|], (parse_from mv ex r) as [v|e|]; try contradiction; split; intros (x & E & L); try discriminate E.
    - injection E as <-. exists v3. split; [reflexivity|]. now rewrite <- (try_from_alike rnd v3 v M3).
    - injection E as <-. exists v. split; [reflexivity|]. now rewrite (try_from_alike rnd v3 v M3). }
  split; [|split].
  - intros X. destruct (O1 X) as (e & E). rewrite E in M3. exists e. destruct (parse_from mv ex r); try contradiction. now subst.
  - intros i rs. rewrite O2. split; intros (p' & L & Q); exists p'; (split; [apply LE; exact L|exact Q]).
  - intros X Y. destruct (O3 X Y) as (v3 & id & n & ty & E & L). rewrite E in M3. destruct (parse_from mv ex r) as [v|e|]; try contradiction. exists v, id, n, ty. split; [reflexivity|]. now rewrite (try_from_alike rnd v3 v M3).
Qed.
Print Assumptions C104_automatic.
(** What has come back once is ready in the sense of C46 and C86; code that survives is not changed at all. *)
Theorem C104_settled p : open_project p -> all_said (sp_screens p) -> ready_project (project_back p).
Proof.
  intros PP GA. apply (open_recoded_ready p); [exact PP|]. pose proof (said_kept_well p (sp_screens p) [] PP) as K. cbn [map] in K. rewrite !app_nil_r in K. auto.
Qed.
Print Assumptions C104_settled.
Theorem C104_same p : open_project p -> Forall (fun s => Forall survives (screen_codes s)) (sp_screens p) -> project_back p = p.
Proof.
  intros (PS & _) K. assert (E : map screen_back (sp_screens p) = sp_screens p).
  { induction K as [|s l K _ IH]; [reflexivity|]. apply Forall_cons_iff in PS as [(_ & _ & _ & _ & P & _) PS]. cbn [map]. rewrite IH by exact PS. f_equal.
    assert (B : forall l, In l (screen_codes s) -> code_back l = l).
    { rewrite Forall_forall in K, P. intros x I. destruct (K x I) as (c & C & R). apply (open_back x c (P x I) C) in R as [_ R]. now symmetry. }
    unfold screen_codes in B. clear - B. destruct s as [ln jn lay va li mb cs es fab fu to dr fe orn th kb]. unfold screen_back.
    cbn [sc_layout_name sc_java_name sc_layout sc_variables sc_list_variables sc_more_blocks sc_components sc_events sc_fab sc_fullscreen sc_toolbar sc_drawer sc_fab_enabled sc_orientation sc_theme sc_keyboard] in *.
    f_equal.
    - clear - B. assert (C : forall x, In x (map (fun kv : str * amore_block => am_code (snd kv)) mb) -> code_back x = x) by (intros x I; apply B, in_or_app; now right). clear B.
      induction mb as [|[k [n sp c]] mb IH]; [reflexivity|]. cbn [map fst snd am_name am_spec am_code] in *. rewrite C by now left. rewrite IH; [reflexivity|]. intros x I. apply C. now right.
    - clear - B. assert (C : forall x, In x (map ae_code es) -> code_back x = x) by (intros x I; apply B, in_or_app; now left). clear B.
      induction es as [|[n ty c] es IH]; [reflexivity|]. cbn [map ae_name ae_type ae_code] in *. rewrite C by now left. rewrite IH; [reflexivity|]. intros x I. apply C. now right. }
  unfold project_back. rewrite E. destruct p; reflexivity.
Qed.
Print Assumptions C104_same.

(** the screen of C46 with the menu of C103 whose name has a space in it everywhere, and with one whose name is empty *)
Lemma open104 code : code_open code -> open_screen (screen95 code).
Proof.
  intros C. destruct screen46_ready as (J & NM & NC & (GM & _ & _ & OC) & LO). split; [exact J|]. split; [exact NM|]. split; [exact NC|]. split; [|split; [|split; [|split]]].
  - constructor; [|constructor]. split; [reflexivity|]. split; [discriminate|]. apply Forall_inv in GM. apply GM.
  - constructor; [exact C|]. constructor; [exact C|]. constructor; [exact C|constructor].
  - intros a e b E X. exfalso. destruct a as [|x [|y [|z a]]]; try discriminate E.
    + injection E as <- <-. destruct X as [(o & [<-|[]] & K)|(kv & [<-|[]] & K)]; vm_compute in K; discriminate K.
    + injection E as <- <- <-. destruct X as [(o & [<-|[]] & K)|(kv & [<-|[]] & K)]; vm_compute in K; discriminate K.
  - now apply recode_first.
  - exact LO.
Qed.
Example C104_example mv ex rnd r :
  let p := project95 ex_menu_spaced in
  open_project p /\ ready_resources (sp_resources p) /\ project_fits p ex_date /\ last_only p /\ all_said (sp_screens p) /\ project_back p = project95 ex_menu_spaced_again /\ project95 ex_menu_spaced_again <> p /\
  (project_into_raw p r -> exists p', loaded mv ex rnd r p' /\ comes_back (project95 ex_menu_spaced_again) p') /\
  open_project (project95 ex_menu_nameless) /\ ~ all_said (sp_screens (project95 ex_menu_nameless)) /\
  exists q, project_into (project95 ex_menu_nameless) = Ok q /\ forall p', project_try_from rnd q <> Ok p'.
Proof.
  cbv zeta. destruct C103_any_example as ((c0 & W0 & R0) & EB & OP & _ & ON & NS). destruct (C85_example [] mv ex rnd) as [K _]. destruct (K eq_refl) as (RP & RR & PF & TA). clear K.
  assert (CO : code_open ex_menu_spaced).
  { assert (L : 9 + N.of_nat (blocks_size ex_menu_spaced) < 2 ^ 31) by (vm_compute; reflexivity). apply code_open_none; [exact L| |exact OP]. apply (C29_total _ L). eauto. }
  assert (SA : code_said ex_menu_spaced) by (apply (open_back _ _ CO W0) in R0; apply R0).
  assert (PJ : forall c, code_open c -> open_project (project95 c)).
  { intros c C. split; [constructor; [now apply open104|constructor]|]. split; [constructor|]. split; repeat constructor; cbn; tauto. }
  assert (PF' : project_fits (project95 ex_menu_spaced) ex_date).
  { destruct PF as (P1 & P2 & P3 & P4 & P5 & P6 & _ & P8). unfold project_fits. repeat (split; [assumption|]). split; [|exact P8]. constructor; [|constructor]. apply fits95. intros c E. set (y := blocks_into _) in E. vm_compute in y. subst y. injection E as <-.
    repeat (constructor; [repeat split; leaf|]). constructor. }
  assert (LO : last_only (project95 ex_menu_spaced)) by (destruct TA as (_ & _ & L & _); exact L).
  assert (GA : all_said (sp_screens (project95 ex_menu_spaced))) by (constructor; [|constructor]; repeat (constructor; [exact SA|]); constructor).
  assert (SE : project_back (project95 ex_menu_spaced) = project95 ex_menu_spaced_again).
  { rewrite <- EB. reflexivity. }
  assert (PN : code_open ex_menu_nameless).
  { assert (L : 9 + N.of_nat (blocks_size ex_menu_nameless) < 2 ^ 31) by (vm_compute; reflexivity). apply code_open_none; [exact L|apply (C29_total _ L); eexists; vm_compute; reflexivity|exact ON]. }
  assert (NG : ~ all_said (sp_screens (project95 ex_menu_nameless))).
  { intros G. apply NS. apply Forall_inv, Forall_inv in G. exact G. }
  split; [auto|]. split; [exact RR|]. split; [exact PF'|]. split; [exact LO|]. split; [exact GA|]. split; [exact SE|]. split; [discriminate|]. split; [|split; [auto|split; [exact NG|]]].
  - intros W. destruct (C104_files mv ex rnd _ ex_date (PJ _ CO) RR eq_refl PF') as (_ & O). destruct (O r W) as (_ & _ & O1).
    assert (DV : date_value (date_text ex_date) 1636974733) by (apply (C86_dates _ ex_date); [reflexivity|vm_compute; reflexivity|apply TA]).
    destruct (proj2 (O1 _ DV) LO) as (v & P & _ & L). destruct (L GA) as (p' & L' & CBK). exists p'. split; [exists v; auto|]. rewrite <- SE. exact CBK.
  - destruct (C104_memory rnd _ (PJ _ PN) RR) as (q & H & N1 & _). exists q. split; [exact H|]. intros p' E. elim NG. eapply N1. exact E.
Qed.
