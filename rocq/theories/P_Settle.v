(** Property C95: a project whose code does not survive as it is, written and read again
    (/repo/src/api/mod.rs L303-450, L487-675, /repo/src/api/screen.rs L70-340, /repo/src/api/block.rs L60-420, /repo/src/parser/mod.rs L153-240). *)
From Coq Require Import Lia.
From Verif Require Import Base Str M_Color M_Date M_Raw M_Project M_File M_Library M_Resource M_View M_Logic M_Parsed A_Block A_View A_Screen A_Project
  SpecBlock SpecView SpecScreen SpecProject SpecLoad SpecSave SpecDate DateTextProofs BlockWriteProofs ScreenProofs ApiProjectProofs SaveProofs RemainProofs ResFilesProofs SettleProofs SettleSaveProofs
  P_Block P_Project P_View P_Logic P_Parsed P_Screen P_ApiProject P_Loading P_Save P_Back SpecBack SpecSettle.

(** ** C95: what becomes of a project with any plain code *)
(** In memory: nothing panics, the project is read exactly if its code is given (but for the resources, as in C46),
    and then it comes back with its code settled. *)
Theorem C95_memory rnd p : plain_project p -> ready_resources (sp_resources p) -> exists q, project_into p = Ok q /\
  project_try_from rnd q <> Panic /\
  (forall p', project_try_from rnd q = Ok p' -> all_given (sp_screens p)) /\
  (all_given (sp_screens p) ->
    (sp_automatic p = false -> exists p', project_try_from rnd q = Ok p' /\ comes_back (settle p) p') /\
    (sp_automatic p = true -> sp_resources p = resources_empty -> exists p', project_try_from rnd q = Ok p' /\ same_project (settle p) p' /\
       sp_custom_icon p' = sp_custom_icon p /\ sp_resources p' = resources_empty) /\
    (sp_automatic p = true -> sp_resources p <> resources_empty -> exists id n t, project_try_from rnd q = Err (XMissingResourceFile id n t))).
Proof.
  intros PP RR. destruct (plain_project_into p PP RR) as (q & H). exists q. split; [exact H|]. split; [eapply memory_safe; eauto|]. split; [intros p' K; eapply memory_given; eauto|].
  intros GA. destruct (memory_transfer p q PP RR GA H) as (RP2 & q2 & H2 & AL). destruct (C46_partial rnd (settle p) RP2 RR) as (q' & H' & A & B & C).
  pose proof (eq_trans (eq_sym H2) H') as E. injection E as <-. rewrite (try_from_alike rnd q2 q AL). split; [|split].
  - intros Au. destruct (A Au) as (p' & K & S & I & F). exists p'. split; [exact K|]. split; [exact S|]. split; [exact I|exact F].
  - exact B.
  - exact C.
Qed.
Print Assumptions C95_memory.

(** ** Through the files *)
Lemma plain_written p dt : plain_project p -> ready_resources (sp_resources p) -> project_fits p dt -> exists r, project_into_raw p r.
Proof.
  intros PP RR PF. destruct (plain_project_into p PP RR) as (q & H). pose proof (filed_typed p q dt (plain_filed p PP) PF H) as T. destruct (C50_written q dt T) as (r & W). exists r, q. auto.
Qed.
Lemma blank_layouts p : all_layouts (set_screens (map blank (sp_screens p)) p) = all_layouts p.
Proof. unfold all_layouts. cbn [set_screens sp_screens sp_custom_views]. rewrite map_map. reflexivity. Qed.
(** the date and the view file are what they are with other code *)
Lemma plain_outcome mv ex p dt r : plain_project p -> ready_resources (sp_resources p) -> project_fits p dt -> project_into_raw p r ->
  (date_crash (date_text dt) -> parse_from mv ex r = Panic) /\
  (date_wrong (date_text dt) -> parse_from mv ex r = Err (PeProject tt)) /\
  forall t, date_value (date_text dt) t -> ~ last_only p -> exists e, parse_from mv ex r = Err (PeView e).
Proof.
  intros PP RR PF (q & H & W). destruct (blank_transfer mv ex p q dt r PP RR PF H W) as (RP2 & PF2 & r2 & (q2 & H2 & W2) & M).
  destruct (outcome_files mv ex _ q2 dt r2 RP2 PF2 H2 W2) as (O1 & O2 & O3). unfold last_only in *. rewrite blank_layouts in O3. split; [|split].
  - intros D. rewrite (O1 D) in M. destruct (parse_from mv ex r); tauto.
  - intros D. rewrite (O2 D) in M. destruct (parse_from mv ex r); try tauto. now subst.
  - intros t D L. destruct (O3 t D L) as (e & X). rewrite X in M. exists e. destruct (parse_from mv ex r); try tauto. now subst.
Qed.
Theorem C95_files mv ex rnd p dt : plain_project p -> ready_resources (sp_resources p) -> sp_automatic p = false -> project_fits p dt ->
  (exists r, project_into_raw p r) /\
  forall r, project_into_raw p r ->
    (date_crash (date_text dt) -> parse_from mv ex r = Panic) /\
    (date_wrong (date_text dt) -> parse_from mv ex r = Err (PeProject tt)) /\
    forall t, date_value (date_text dt) t ->
      (~ last_only p -> exists e, parse_from mv ex r = Err (PeView e)) /\
      (last_only p -> exists v, parse_from mv ex r = Ok v /\ project_try_from rnd v <> Panic /\
         (forall p', project_try_from rnd v = Ok p' -> all_given (code_kept (sp_screens p))) /\
         (all_given (code_kept (sp_screens p)) -> exists p', project_try_from rnd v = Ok p' /\ comes_back (settle (remains (created_at t p))) p')).
Proof.
  intros PP RR A PF. split; [now apply (plain_written p dt)|]. intros r R. destruct (plain_outcome mv ex p dt r PP RR PF R) as (O1 & O2 & O3). split; [exact O1|]. split; [exact O2|].
  intros t TD. split; [exact (O3 t TD)|]. intros LO. destruct R as (q & H & W). destruct (blank_transfer mv ex p q dt r PP RR PF H W) as (RP2 & PF2 & r2 & R2 & M).
  assert (LO2 : last_only (set_screens (map blank (sp_screens p)) p)) by (unfold last_only; rewrite blank_layouts; exact LO).
  destruct (C86_outcome mv ex rnd _ dt RP2 RR A PF2) as (_ & O). destruct (O r2 R2) as (_ & _ & OV). destruct (proj2 (OV t TD) LO2) as (p2 & (v2 & K2 & _) & _). clear O OV. rewrite K2 in M.
  destruct (parse_from mv ex r) as [v|e|] eqn:K; [|contradiction|contradiction]. exists v. split; [reflexivity|]. split; [eapply loaded_safe; eauto|]. split; [intros p' L; eapply loaded_given; eauto|].
  intros GA. destruct (SaveProofs.first_without (sp_screens p)) as (a & b & AB & CA & CB). pose proof GA as GA0. rewrite AB in GA0. apply (proj1 (all_given_split a b CA CB)) in GA0.
  destruct (kept_transfer mv ex p q dt r a b PP RR PF AB CA CB GA0 H W) as (RP3 & PF3 & r3 & R3 & M3). rewrite K in M3.
  destruct (C86_outcome mv ex rnd _ dt RP3 RR A PF3) as (_ & O). destruct (O r3 R3) as (_ & _ & OV). destruct (proj2 (OV t TD)) as (p' & (v3 & K3 & L3) & CBK).
  { unfold last_only, all_layouts, kept_settled. cbn [set_screens sp_screens sp_custom_views]. rewrite map_app, !map_map. change (fun x => sc_layout (settle_screen x)) with sc_layout. change (fun x => sc_layout (blank x)) with sc_layout.
    rewrite <- map_app, <- AB. exact LO. }
  rewrite K3 in M3. exists p'. split; [now rewrite (try_from_alike rnd v3 v M3)|]. now rewrite <- (kept_remains p a b t AB CA CB).
Qed.
Print Assumptions C95_files.
(** with automatic resources: as in C86, if the code is given *)
Theorem C95_automatic mv ex rnd p dt : plain_project p -> ready_resources (sp_resources p) -> sp_automatic p = true -> project_fits p dt -> all_given (code_kept (sp_screens p)) ->
  forall r, project_into_raw p r -> forall t, date_value (date_text dt) t -> last_only p ->
    ((exists w, sp_custom_icon p = Some w /\ forall ty n, ~ wrapper_class ex w ty n) -> exists e, parse_from mv ex r = Err (PeResourceFiles e)) /\
    (forall i rs, icon_outcome ex (sp_custom_icon p) (sp_resources p) i rs <->
       exists p', loaded mv ex rnd r p' /\ same_project (settle (remains (created_at t p))) p' /\ sp_custom_icon p' = i /\ sp_resources p' = rs) /\
    ((forall w, sp_custom_icon p = Some w -> exists ty n, wrapper_class ex w ty n) -> (forall i rs, ~ icon_outcome ex (sp_custom_icon p) (sp_resources p) i rs) ->
       exists v id n ty, parse_from mv ex r = Ok v /\ project_try_from rnd v = Err (XMissingResourceFile id n ty)).
Proof.
  intros PP RR A PF GA r (q & H & W) t TD LO. destruct (SaveProofs.first_without (sp_screens p)) as (a & b & AB & CA & CB). pose proof GA as GA0. rewrite AB in GA0. apply (proj1 (all_given_split a b CA CB)) in GA0.
  destruct (kept_transfer mv ex p q dt r a b PP RR PF AB CA CB GA0 H W) as (RP3 & PF3 & r3 & R3 & M3).
  destruct (C86_automatic mv ex rnd _ dt RP3 RR A PF3) as (_ & O). destruct (O r3 R3) as (_ & _ & OV). destruct (proj2 (OV t TD)) as (O1 & O2 & O3).
  { unfold last_only, all_layouts, kept_settled. cbn [set_screens sp_screens sp_custom_views]. rewrite map_app, !map_map. change (fun x => sc_layout (settle_screen x)) with sc_layout. change (fun x => sc_layout (blank x)) with sc_layout.
    rewrite <- map_app, <- AB. exact LO. }
  clear O OV. rewrite (kept_remains p a b t AB CA CB) in O2. cbn [kept_settled set_screens sp_custom_icon sp_resources] in O1, O2, O3.
  assert (LE : forall p', loaded mv ex rnd r p' <-> loaded mv ex rnd r3 p').
  { intros p'. unfold loaded. destruct (parse_from mv ex r3) as [v3|e3|], (parse_from mv ex r) as [v|e|]; try contradiction; split; intros (x & E & L); try discriminate E.
    - injection E as <-. exists v3. split; [reflexivity|]. now rewrite <- (try_from_alike rnd v3 v M3).
    - injection E as <-. exists v. split; [reflexivity|]. now rewrite (try_from_alike rnd v3 v M3). }
  split; [|split].
  - intros X. destruct (O1 X) as (e & E). rewrite E in M3. exists e. destruct (parse_from mv ex r); try contradiction. now subst.
  - intros i rs. rewrite O2. split; intros (p' & L & Q); exists p'; (split; [apply LE; exact L|exact Q]).
  - intros X Y. destruct (O3 X Y) as (v3 & id & n & ty & E & L). rewrite E in M3. destruct (parse_from mv ex r) as [v|e|]; try contradiction. exists v, id, n, ty. split; [reflexivity|]. now rewrite (try_from_alike rnd v3 v M3).
Qed.
Print Assumptions C95_automatic.
(** What has come back once is ready in the sense of C46 and C86 and is not settled any further; code that is kept (C31) is not changed at all. *)
Theorem C95_settled p : plain_project p -> all_given (sp_screens p) -> ready_project (settle p) /\ settle (settle p) = settle p.
Proof.
  intros PP GA. split.
  - apply (recoded_ready p); [exact PP|]. pose proof (kept_well p (sp_screens p) [] PP) as K. cbn [map] in K. rewrite !app_nil_r in K. auto.
  - destruct PP as (PS & _). unfold settle. cbn [set_screens sp_screens]. unfold set_screens. cbn [sp_custom_icon sp_metadata sp_colors sp_screens sp_custom_views sp_libraries sp_resources sp_automatic]. f_equal.
    rewrite map_map. apply map_ext_in. intros s I. unfold all_given in GA. rewrite Forall_forall in PS, GA. destruct (PS s I) as (_ & _ & _ & _ & P & _). specialize (GA s I).
    assert (B : forall l, In l (screen_codes s) -> map block_back (map block_back l) = map block_back l).
    { intros l Il. rewrite Forall_forall in P, GA. destruct (P l Il) as (L & Nh & Pl). specialize (GA l Il). unfold code_given in GA. rewrite map_map. apply map_ext_in. intros b Ib. rewrite Forall_forall in *.
      apply BackProofs.kept_block_back, BackProofs.back_kept; auto. }
    unfold screen_codes in B. unfold settle_screen. cbn [sc_layout_name sc_java_name sc_layout sc_variables sc_list_variables sc_more_blocks sc_components sc_events sc_fab sc_fullscreen sc_toolbar sc_drawer sc_fab_enabled sc_orientation sc_theme sc_keyboard].
    f_equal; rewrite map_map; apply map_ext_in; intros x Ix; cbn [fst snd am_name am_spec am_code ae_name ae_type ae_code]; rewrite B; try reflexivity; apply in_or_app; [right|left]; apply in_map_iff; eauto.
Qed.
Print Assumptions C95_settled.
Theorem C95_kept p : Forall (fun s => Forall (Forall SpecBlock.kept) (screen_codes s)) (sp_screens p) -> settle p = p.
Proof.
  intros K. assert (E : map settle_screen (sp_screens p) = sp_screens p).
  { induction K as [|s l K _ IH]; [reflexivity|]. cbn [map]. rewrite IH. f_equal. unfold screen_codes in K. apply Forall_app in K as [K1 K2].
    assert (B : forall l, Forall SpecBlock.kept l -> map block_back l = l) by (clear; induction 1 as [|b l K _ IH]; [reflexivity|]; cbn [map]; rewrite BackProofs.kept_block_back, IH; auto).
    destruct s as [ln jn lay va li mb cs es fab fu to dr fe orn th kb]. unfold settle_screen. cbn [sc_layout_name sc_java_name sc_layout sc_variables sc_list_variables sc_more_blocks sc_components sc_events sc_fab sc_fullscreen sc_toolbar sc_drawer sc_fab_enabled sc_orientation sc_theme sc_keyboard] in *.
    f_equal.
    - clear - K2 B. induction mb as [|[k [n sp c]] mb IH]; [reflexivity|]. cbn [map fst snd am_name am_spec am_code] in *. apply Forall_cons_iff in K2 as [K K2]. rewrite B, IH; auto.
    - clear - K1 B. induction es as [|[n ty c] es IH]; [reflexivity|]. cbn [map ae_name ae_type ae_code] in *. apply Forall_cons_iff in K1 as [K K1]. rewrite B, IH; auto. }
  unfold settle. rewrite E. destruct p; reflexivity.
Qed.
Print Assumptions C95_kept.

(** the screen of C46 with the code of C94 everywhere, and with a block whose number is not given *)
Definition screen95 (code : blocks) : screen := recode (fun _ => code) screen46.
Definition project95 (code : blocks) : sw_project := set_screens [screen95 code] (project85 []).
Definition number95 : ablock := MkBlock None None green (lit "n") [SParam (ArgNumber None AEmpty)] TRegular.
Lemma plain95 code : code_plain code -> plain_screen (screen95 code).
Proof.
  intros C. destruct screen46_ready as (J & NM & NC & (GM & _ & _ & OC) & LO). split; [exact J|]. split; [exact NM|]. split; [exact NC|]. split; [|split; [|split; [|split]]].
  - constructor; [|constructor]. split; [reflexivity|]. split; [discriminate|]. apply Forall_inv in GM. apply GM.
  - constructor; [exact C|]. constructor; [exact C|]. constructor; [exact C|constructor].
  - intros a e b E X. exfalso. destruct a as [|x [|y [|z a]]]; try discriminate E.
    + injection E as <- <-. destruct X as [(o & [<-|[]] & K)|(kv & [<-|[]] & K)]; vm_compute in K; discriminate K.
    + injection E as <- <- <-. destruct X as [(o & [<-|[]] & K)|(kv & [<-|[]] & K)]; vm_compute in K; discriminate K.
  - now apply recode_first.
  - exact LO.
Qed.
Lemma fits95 code : code_fits code -> screen_fits (screen95 code).
Proof. intros C. apply recode_fits; [intros l _ _; exact C|apply screen46_fits]. Qed.
Example C95_example mv ex rnd r :
  let p := project95 ex_back in
  plain_project p /\ ready_resources (sp_resources p) /\ project_fits p ex_date /\ last_only p /\ all_given (sp_screens p) /\ settle p = project95 ex_back_again /\ project95 ex_back_again <> p /\
  (project_into_raw p r -> exists p', loaded mv ex rnd r p' /\ comes_back (project95 ex_back_again) p') /\
  plain_project (project95 [number95]) /\ ~ all_given (sp_screens (project95 [number95])) /\
  exists q e, project_into (project95 [number95]) = Ok q /\ project_try_from rnd q = Err e.
Proof.
  cbv zeta. destruct C94_example as (_ & EB & _ & PL & GI). destruct (C85_example [] mv ex rnd) as [K _]. destruct (K eq_refl) as (RP & RR & PF & TA). clear K.
  assert (PC : code_plain ex_back).
  { assert (L : 9 + N.of_nat (blocks_size ex_back) < 2 ^ 31) by (vm_compute; reflexivity). split; [exact L|]. split; [|exact PL]. apply (C29_total ex_back L). destruct C94_example as ((c & W & _) & _). eauto. }
  assert (PJ : forall c, code_plain c -> plain_project (project95 c)).
  { intros c C. split; [constructor; [now apply plain95|constructor]|]. split; [constructor|]. split; repeat constructor; cbn; tauto. }
  assert (PF' : project_fits (project95 ex_back) ex_date).
  { destruct PF as (P1 & P2 & P3 & P4 & P5 & P6 & _ & P8). unfold project_fits. repeat (split; [assumption|]). split; [|exact P8]. constructor; [|constructor]. apply fits95. intros c E. set (y := blocks_into _) in E. vm_compute in y. subst y. injection E as <-.
    repeat (constructor; [repeat split; leaf|]). constructor. }
  assert (LO : last_only (project95 ex_back)) by (destruct TA as (_ & _ & L & _); exact L).
  assert (GA : all_given (sp_screens (project95 ex_back))) by (constructor; [|constructor]; repeat (constructor; [exact GI|]); constructor).
  assert (SE : settle (project95 ex_back) = project95 ex_back_again).
  { rewrite <- EB. reflexivity. }
  assert (PN : code_plain [number95]).
  { assert (L : 9 + N.of_nat (blocks_size [number95]) < 2 ^ 31) by (vm_compute; reflexivity). split; [exact L|]. split; [apply (C29_total _ L); eexists; vm_compute; reflexivity|]. repeat constructor; cbn; auto; try discriminate; intuition discriminate. }
  assert (NG : ~ all_given (sp_screens (project95 [number95]))).
  { intros G. apply Forall_inv, Forall_inv, Forall_inv, Forall_inv in G. destruct G as [_ G]. apply Forall_inv in G. exact G. }
  split; [auto|]. split; [exact RR|]. split; [exact PF'|]. split; [exact LO|]. split; [exact GA|]. split; [exact SE|]. split; [discriminate|]. split; [|split; [auto|split; [exact NG|]]].
  - intros W. destruct (C95_files mv ex rnd _ ex_date (PJ _ PC) RR eq_refl PF') as (_ & O). destruct (O r W) as (_ & _ & O1).
    assert (DV : date_value (date_text ex_date) 1636974733) by (apply (C86_dates _ ex_date); [reflexivity|vm_compute; reflexivity|apply TA]).
    destruct (proj2 (O1 _ DV) LO) as (v & P & _ & _ & L). destruct (L GA) as (p' & L' & CBK). exists p'. split; [exists v; auto|]. rewrite <- SE. exact CBK.
  - destruct (C95_memory rnd _ (PJ _ PN) RR) as (q & H & N1 & N2 & _). exists q. destruct (project_try_from rnd q) as [p'|e|]; [elim NG; eapply N2; reflexivity|exists e; auto|congruence].
Qed.
