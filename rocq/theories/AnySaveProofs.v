(** Proofs about saving and loading projects with any code: as in [SettleSaveProofs.v], with what C103 says comes back. *)
From Verif Require Import Base Str M_Color M_Raw M_Project M_File M_Library M_Resource M_View M_Logic M_Parsed A_Block A_View A_Screen A_Project
  SpecBlock SpecView SpecScreen SpecProject SpecLoad SpecSave BlockWriteProofs ScreenProofs ApiProjectProofs SaveProofs RemainProofs SettleProofs SettleSaveProofs P_Logic P_Parsed P_ApiProject P_Loading P_Save SpecBack SpecSettle
  SpecAnyCode AnyCodeProofs.

Lemma back_recode s : screen_back s = recode code_back s.
Proof. reflexivity. Qed.
Lemma open_recode_ready f s : f [] = [] -> open_screen s -> (forall l, In l (screen_codes s) -> survives (f l)) -> ready_screen (recode f s).
Proof.
  intros F (J & NM & NC & M & _ & SH & OC & L) S. unfold screen_codes in S. split; [exact J|]. split; [|split; [exact NC|split; [|exact L]]].
  - unfold recode. cbn [sc_more_blocks]. rewrite map_map. exact NM.
  - split; [|split; [|split; [now apply recode_shared|now apply recode_first]]].
    + unfold recode. cbn [sc_more_blocks]. apply Forall_map. rewrite Forall_forall in *. intros kv I. destruct (M kv I) as (A & B & C). unfold good_more_block. cbn [fst snd am_name am_spec am_code].
      split; [exact A|]. split; [exact B|]. split; [exact C|]. apply S, in_or_app. right. apply in_map_iff. eauto.
    + unfold recode. cbn [sc_events]. apply Forall_map, Forall_forall. intros e I. cbn [ae_code]. apply S, in_or_app. left. apply in_map_iff. eauto.
Qed.
Lemma open_rel_all l : forall cs cs' bc bc', Forall (fun y => code_open (snd y) /\ code_said (snd y)) l -> Forall2 writes l cs -> Forall2 writes (map (fun y => (fst y, code_back (snd y))) l) cs' -> rel bc bc' ->
  rel (ins_all (kbc l cs) bc) (ins_all (kbc (map (fun y => (fst y, code_back (snd y))) l) cs') bc').
Proof.
  induction l as [|y l IH]; intros cs cs' bc bc' G W W' R; inversion W as [|? c ? cs1 W1 W2]; inversion W' as [|? c' ? cs1' W1' W2']; subst; [exact R|].
  apply Forall_cons_iff in G as [[P K] G]. change (rel (ins_all (kbc l cs1) (sinsert (fst y) c bc)) (ins_all (kbc (map (fun y => (fst y, code_back (snd y))) l) cs1') (sinsert (fst y) c' bc'))).
  apply IH; auto. apply rel_insert; [|exact R]. unfold writes in *. cbn [snd] in W1'.
  destruct (said_survives _ P K) as (d & D1 & D2). pose proof (eq_trans (eq_sym D1) W1') as Ed. injection Ed as ->. rewrite D2. symmetry. now apply (open_back _ _ P W1).
Qed.
Lemma said_reads s lg lg' ln jn fe ve fab : open_screen s -> Forall code_said (screen_codes s) -> screen_logic_of s = Ok lg -> screen_logic_of (screen_back s) = Ok lg' ->
  screen_from_parsed ln jn fe ve lg' fab = screen_from_parsed ln jn fe ve lg fab.
Proof.
  intros (_ & _ & _ & _ & P & _) K H H'. rewrite back_recode in H'. apply screen_logic_iff in H as (cs & W & ->). apply screen_logic_iff in H' as (cs' & W' & ->).
  assert (R : rel (ins_all (kbc (cells s) cs) []) (ins_all (kbc (cells (recode code_back s)) cs') [])).
  { rewrite cells_recode in *. apply open_rel_all; auto; [|intros k; exact I]. rewrite <- cells_codes in P, K. rewrite Forall_map in P, K. rewrite Forall_forall in *. auto. }
  apply same_code_reads; cbn [logic_with sl_block_containers sl_variables sl_list_variables sl_components sl_events sl_more_blocks]; try reflexivity.
  - intros k. specialize (R k). destruct (sget k _), (sget k _); cbn [or_empty]; try contradiction; auto.
  - specialize (R INITIALIZE). unfold smem, lmem. fold (@sget block_container). destruct (sget INITIALIZE (ins_all (kbc (cells s) cs) [])), (sget INITIALIZE (ins_all (kbc (cells (recode code_back s)) cs') [])); try contradiction; reflexivity.
  - now rewrite raw_events_recode.
  - now rewrite raw_more_blocks_recode.
Qed.
Lemma read_said s lg ln jn fe ve fab s' : open_screen s -> screen_logic_of s = Ok lg -> screen_from_parsed ln jn fe ve lg fab = Ok s' -> Forall code_said (screen_codes s).
Proof.
  intros (_ & NM & NC & M & P & SH & OC & _) H R. apply screen_logic_iff in H as (cs & W & ->).
  assert (V : exists views, parse_raw_layout ve = Ok views).
  { unfold screen_from_parsed in R. apply bind_ok in R as (views & V & _). apply map_err_ok in V. eauto. }
  destruct V as (views & V). destruct (proj1 (from_parsed_logic _ _ _ _ _ _ _ _ _ NC V) R) as (ms & bc & es & T & E & _).
  rewrite with_on_create_written in E by exact W. cbn [logic_with sl_more_blocks or_empty sl_block_containers] in T.
  apply take_more_blocks_iff in T as (T1 & T2 & ->). apply take_events_iff in E as (E1 & E2).
  apply (on_create_iff _ _ (init_written s cs W)) in OC. pose proof (same_strip _ _ _ E1 OC) as ES.
  assert (MK : map fst ms = map fst (sc_more_blocks s)).
  { rewrite (reads_keys _ _ T1), scollect_nodup; now rewrite raw_more_blocks_keys. }
  set (bc := ins_all (kbc (cells s) cs) []) in *.
  assert (MK' : map (fun r : str * amore_block => more_block_container (fst r)) ms = map fst (map mcell (sc_more_blocks s))).
  { rewrite map_map. cbn [fst mcell]. rewrite <- (map_map fst more_block_container ms), <- (map_map fst more_block_container (sc_more_blocks s)). now rewrite MK. }
  assert (RM : forall y, In y (map mcell (sc_more_blocks s)) -> exists t, blocks_try_from (or_empty (sget (fst y) bc)) = Ok t).
  { intros y I. apply (in_map fst) in I as Ik. rewrite <- MK' in Ik. apply in_map_iff in Ik as (r & Er & Ir). apply in_split in Ir as (a & b & ->).
    apply (proj1 (grab_each (fun r : str * amore_block => more_block_container (fst r)) (fun c r => blocks_try_from c = Ok (am_code (snd r))) _ bc)) with (a := a) (y := r) (b := b) in T2; [|reflexivity].
    exists (am_code (snd r)). rewrite Er in T2. unfold rd in T2. replace (mem (fst y) (map _ a)) with false in T2; [exact T2|]. symmetry. apply mem_not. intros Q.
    pose proof (mcell_nodup _ NM) as ND. rewrite <- MK', map_app in ND. cbn [map] in ND. apply NoDup_remove_2 in ND. apply ND, in_or_app. left. now rewrite Er. }
  assert (RE : forall y, In y (map ecell (sc_events s)) -> snd y <> [] -> exists t, blocks_try_from (or_empty (sget (fst y) bc)) = Ok t).
  { intros y I C. apply in_split in I as (ea & eb & Ee).
    assert (X : ~ In (fst y) (map fst (map mcell (sc_more_blocks s) ++ ea ++ eb))) by (intros X; apply C; now apply (proj1 (shared_cells s) SH ea y eb Ee)).
    rewrite !map_app, !in_app_iff in X.
    assert (EK : map get_block_container_id es = map fst ea ++ fst y :: map fst eb).
    { rewrite ES. replace (map get_block_container_id (sc_events s)) with (map fst (map ecell (sc_events s))) by (rewrite map_map; reflexivity). rewrite Ee, map_app. reflexivity. }
    apply map_eq_app in EK as (a & r & -> & Ea & Er). apply map_eq_cons in Er as (e & b & -> & Ke & Eb).
    apply (proj1 (grab_each get_block_container_id (fun c a => blocks_try_from c = Ok (ae_code a)) _ _)) with (a := a) (y := e) (b := b) in E2; [|reflexivity].
    exists (ae_code e). rewrite Ke, Ea in E2. unfold rd in E2. replace (mem (fst y) (map fst ea)) with false in E2 by (symmetry; apply mem_not; tauto).
    rewrite grab_left in E2. replace (mem (fst y) _) with false in E2; [exact E2|]. symmetry. apply mem_not. rewrite MK'. tauto. }
  rewrite <- cells_codes in *. rewrite Forall_map in *. rewrite Forall_forall in *. intros y I.
  assert (D : snd y = [] \/ (snd y <> [] \/ In y (map mcell (sc_more_blocks s)))) by (destruct (snd y); [now left|right; left; discriminate]).
  destruct D as [D|D]; [rewrite D; constructor|]. destruct (written_at s cs y NM SH W I D) as (c & B & G). fold bc in G.
  assert (RR : exists t, blocks_try_from (or_empty (sget (fst y) bc)) = Ok t).
  { unfold cells in I. apply in_app_or in I as [I|I]; [|now apply RM]. destruct D as [D|D]; [now apply RE|now apply RM]. }
  destruct RR as (t & RR). rewrite G in RR. cbn [or_empty] in RR. apply (open_back _ _ (P y I) B) in RR. apply RR.
Qed.
Lemma open_filed p : open_project p -> filed_project p.
Proof.
  intros (PS & _ & N1 & N2). split; [|auto]. eapply Forall_impl; [|exact PS]. intros s (J & NM & _ & M & _). split; [exact J|]. split; [exact NM|]. eapply Forall_impl; [|exact M]. intros kv (E & _). exact E.
Qed.
Lemma open_logic s : open_screen s -> exists lg, screen_logic_of s = Ok lg.
Proof.
  intros (_ & _ & _ & _ & P & _). rewrite <- cells_codes in P. rewrite Forall_map in P.
  assert (W : exists cs, Forall2 writes (cells s) cs).
  { induction P as [|y l P _ (cs & IH)]; [exists []; constructor|]. destruct (open_into _ P) as (c & C). exists (c :: cs). constructor; [exact C|exact IH]. }
  destruct W as (cs & W). eexists. apply screen_logic_iff. eauto.
Qed.
Lemma open_project_into p : open_project p -> ready_resources (sp_resources p) -> exists q, project_into p = Ok q.
Proof.
  intros (PS & _) RR. destruct (put_screens_ok (sp_screens p)) with (lgs := @nil (str * screen_logic)) (lays := @nil (str * layout)) (fabs := @nil (str * android_view)) as ([[? ?] ?] & E1).
  { eapply Forall_impl; [|exact PS]. intros s P. destruct (open_logic s P) as (lg & E). eauto. }
  unfold ready_resources, resources_of in RR.
  destruct (put_resources_ok (sp_automatic p) (re_images (sp_resources p)) [] (proj2 (RR RImage _ (or_introl eq_refl)))) as ([? ?] & E2).
  destruct (put_resources_ok (sp_automatic p) (re_sounds (sp_resources p)) [] (proj2 (RR RSound _ (or_intror (or_introl eq_refl))))) as ([? ?] & E3).
  destruct (put_resources_ok (sp_automatic p) (re_fonts (sp_resources p)) [] (proj2 (RR RFont _ (or_intror (or_intror (or_introl eq_refl)))))) as ([? ?] & E4).
  unfold project_into. rewrite E1. cbn [bind]. rewrite E2. cbn [bind]. rewrite E3. cbn [bind]. rewrite E4. cbn [bind]. eauto.
Qed.
Lemma said_well s : open_screen s -> Forall code_said (screen_codes s) -> well_recoded s (screen_back s).
Proof.
  intros (_ & _ & _ & _ & P & _) K. exists code_back. split; [reflexivity|]. split; [reflexivity|]. rewrite Forall_forall in P, K. intros l I. split; [apply said_survives|apply said_fits]; auto.
Qed.
Lemma open_recoded_ready p l2 : open_project p -> Forall2 well_recoded (sp_screens p) l2 -> ready_project (set_screens l2 p).
Proof.
  intros (PS & CV & N1 & N2) F. pose proof (recoded_names _ _ (forall2_impl _ _ _ _ well_recoded_some F)) as (E1 & E2 & _).
  unfold ready_project. cbn [set_screens sp_screens sp_custom_views]. rewrite E1, E2. split; [|auto]. clear - PS F. induction F as [|s s2 l l2 (f & F0 & -> & S) _ IH]; [constructor|].
  apply Forall_cons_iff in PS as [P PS]. constructor; [|auto]. apply open_recode_ready; auto. intros x I. apply S, I.
Qed.
Lemma all_said_split a b : Forall has_code a -> (forall y r, b = y :: r -> ~ has_code y) -> (all_said (code_kept (a ++ b)) <-> all_said a).
Proof.
  intros A B. rewrite (code_kept_split a b A B). unfold all_said. rewrite Forall_app. split; [tauto|]. intros H. split; [exact H|]. apply Forall_map, Forall_forall. intros s _.
  apply Forall_forall. intros l I. unfold screen_codes, without_code in I. cbn [sc_events sc_more_blocks] in I. rewrite !map_map in I. cbn [ae_code am_code snd] in I.
  apply in_app_or in I as [I|I]; apply in_map_iff in I as (x & <- & _); constructor.
Qed.
Definition kept_said (a b : list screen) (p : sw_project) : sw_project := set_screens (map screen_back a ++ map blank b) p.
Lemma said_kept_well p a b : open_project p -> sp_screens p = a ++ b -> all_said a -> Forall2 well_recoded (sp_screens p) (map screen_back a ++ map blank b).
Proof.
  intros (PS & _) E G. rewrite E in *. apply Forall_app in PS as [PA _]. apply Forall2_app.
  - clear E. induction PA as [|s l P _ IH]; [constructor|]. apply Forall_cons_iff in G as [G1 G2]. constructor; [|auto]. now apply said_well.
  - clear. induction b as [|s l IH]; constructor; [apply blank_well|exact IH].
Qed.
Lemma open_logic_swapped mv p q q2 dt a b g : open_project p -> project_fits p dt -> sp_screens p = a ++ b -> Forall has_code a -> (forall y r, b = y :: r -> ~ has_code y) -> all_said a ->
  project_into p = Ok q -> project_into (kept_said a b p) = Ok q2 -> logic_parse mv (logic_reconstruct (pp_logic q)) = Ok g ->
  exists g2, logic_parse mv (logic_reconstruct (pp_logic q2)) = Ok g2 /\ forall k, reads_as (sget k g2) (sget k g).
Proof.
  intros PP PF AB CA CB GA H H2 G. pose proof (said_kept_well p a b PP AB GA) as KW. fold (kept_said a b p) in *.
  pose proof (ready_filed _ (open_recoded_ready p _ PP KW)) as RF2. pose proof (recoded_fits p _ dt KW PF) as PF2. fold (kept_said a b p) in RF2, PF2.
  destruct (filed_reads mv p q dt (open_filed p PP) PF H) as (a1 & b1 & g1 & AB1 & CA1 & CB1 & G1 & GS1 & GN1). rewrite AB in AB1. destruct (split_unique _ _ _ _ AB1 CA CB CA1 CB1) as [-> ->]. clear AB1 CA1 CB1.
  rewrite G in G1. injection G1 as <-.
  destruct (filed_reads mv _ q2 dt RF2 PF2 H2) as (a2 & b2 & g2 & AB2 & CA2 & CB2 & G2 & GS2 & GN2). cbn [kept_said set_screens sp_screens] in AB2.
  destruct (split_unique _ _ _ _ AB2) as [-> ->]; auto.
  { apply Forall_map. eapply Forall_impl; [|exact CA]. intros s C. rewrite back_recode. now apply recode_has_code. }
  { intros y r E. destruct b as [|x l]; [discriminate|]. injection E as <- _. intros C. apply recode_has_code in C. now apply (CB x l). }
  exists g2. split; [exact G2|]. intros k.
  assert (NM : map sc_java_name (map screen_back a ++ map blank b) = map sc_java_name (a ++ b)).
  { rewrite !map_app, !map_map. reflexivity. }
  destruct (in_dec (list_eq_dec N.eq_dec) k (map sc_java_name (a ++ b))) as [I|I].
  - apply in_map_iff in I as (s & <- & I). destruct PP as (PS & _). rewrite AB in PS. rewrite Forall_forall in PS. specialize (PS s I).
    destruct (GS1 s I) as (lg & L & _ & X1 & X2). apply in_app_or in I as [I|I].
    + destruct (GS2 (screen_back s)) as (lg2 & L2 & _ & Y1 & _); [apply in_or_app; left; now apply in_map|]. specialize (X1 I). specialize (Y1 (in_map _ _ _ I)).
      change (sc_java_name (screen_back s)) with (sc_java_name s) in Y1. right. exists lg2, lg. split; [exact Y1|]. split; [exact X1|].
      destruct (logic_name _ _ L) as [N1 _]. destruct (logic_name _ _ L2) as [N2 _]. split; [rewrite N1, N2; reflexivity|]. intros. symmetry. apply (said_reads s); auto. unfold all_said in GA. rewrite Forall_forall in GA. now apply GA.
    + destruct (GS2 (blank s)) as (lg2 & L2 & _ & _ & Y2); [apply in_or_app; right; now apply in_map|]. specialize (X2 I). specialize (Y2 (in_map _ _ _ I)).
      change (sc_java_name (blank s)) with (sc_java_name s) in Y2. left. rewrite X2, Y2. f_equal. symmetry. now apply (blank_cut s).
  - left. rewrite (proj1 (GN1 k I)). rewrite <- NM in I. now rewrite (proj1 (GN2 k I)).
Qed.
Lemma back_without_code s : screen_back (without_code s) = without_code s.
Proof.
  unfold screen_back, without_code. cbn [sc_layout_name sc_java_name sc_layout sc_variables sc_list_variables sc_more_blocks sc_components sc_events sc_fab sc_fullscreen sc_toolbar sc_drawer sc_fab_enabled sc_orientation sc_theme sc_keyboard].
  rewrite !map_map. reflexivity.
Qed.
Lemma said_remains p a b t : sp_screens p = a ++ b -> Forall has_code a -> (forall y r, b = y :: r -> ~ has_code y) ->
  remains (created_at t (kept_said a b p)) = project_back (remains (created_at t p)).
Proof.
  intros AB CA CB. assert (AL : all_layouts (created_at t (kept_said a b p)) = all_layouts (created_at t p)).
  { unfold all_layouts. cbn [created_at kept_said set_screens sp_screens sp_custom_views]. rewrite AB, !map_app, !map_map. reflexivity. }
  assert (S : sp_screens (remains (created_at t (kept_said a b p))) = sp_screens (project_back (remains (created_at t p)))).
  { unfold project_back. cbn [set_screens sp_screens]. rewrite !remains_screens. unfold button_kept, no_views. rewrite AL. fold (no_views (created_at t p)). cbn [created_at kept_said set_screens sp_screens]. rewrite AB.
    rewrite !code_kept_split; auto.
    - rewrite !map_app, !map_map. f_equal; [apply map_ext; intros s; destruct (no_views _); reflexivity|]. apply map_ext. intros s. rewrite without_code_blank_screen.
      destruct (no_views _); [|symmetry; apply back_without_code]. change (screen_back (without_button (without_code s))) with (without_button (screen_back (without_code s))). now rewrite back_without_code.
    - apply Forall_map. eapply Forall_impl; [|exact CA]. intros s C. rewrite back_recode. now apply recode_has_code.
    - intros y r E. destruct b as [|x l]; [discriminate|]. injection E as <- _. intros C. apply recode_has_code in C. now apply (CB x l). }
  assert (X : forall u w : sw_project, sp_custom_icon u = sp_custom_icon w -> sp_metadata u = sp_metadata w -> sp_colors u = sp_colors w -> sp_screens u = sp_screens w ->
              sp_custom_views u = sp_custom_views w -> sp_libraries u = sp_libraries w -> sp_resources u = sp_resources w -> sp_automatic u = sp_automatic w -> u = w).
  { intros [] []. cbn. intros. congruence. }
  apply X; try reflexivity; [exact S|]. cbn [remains project_back created_at kept_said set_screens sp_custom_views sp_screens]. rewrite AB. destruct a as [|s a]; [destruct b; reflexivity|reflexivity].
Qed.
Lemma said_transfer mv ex p q dt r a b : open_project p -> ready_resources (sp_resources p) -> project_fits p dt -> sp_screens p = a ++ b -> Forall has_code a -> (forall y r, b = y :: r -> ~ has_code y) -> all_said a ->
  project_into p = Ok q -> into_raw q r ->
  ready_project (kept_said a b p) /\ project_fits (kept_said a b p) dt /\ exists r2, project_into_raw (kept_said a b p) r2 /\
  match parse_from mv ex r2, parse_from mv ex r with Ok v2, Ok v => alike v2 v | Err e2, Err e => e = e2 | Panic, Panic => True | _, _ => False end.
Proof.
  intros PP RR PF AB CA CB GA H W. pose proof (said_kept_well p a b PP AB GA) as KW. pose proof (open_recoded_ready p _ PP KW) as RP2. pose proof (recoded_fits p _ dt KW PF) as PF2.
  fold (kept_said a b p) in RP2, PF2. split; [exact RP2|]. split; [exact PF2|].
  destruct (ready_into (kept_said a b p) RP2 RR) as (q2 & H2). destruct (into_recoded p _ q q2 (forall2_impl _ _ _ _ well_recoded_some KW) H H2) as (E1 & E2 & E3 & E4 & E5 & E6).
  pose proof (raw_swap q q2 r E1 E2 E3 E4 E5 E6 W) as W2. set (r2 := raw_with_logic (logic_reconstruct (pp_logic q2)) r) in *. exists r2. split; [exists q2; auto|].
  destruct (filed_reads mv p q dt (open_filed p PP) PF H) as (_ & _ & g & _ & _ & _ & G & _).
  destruct (open_logic_swapped mv p q q2 dt a b g PP PF AB CA CB GA H H2 G) as (g2 & G2 & RA). destruct (raw_logic q r W) as [_ RL]. rewrite <- RL in G.
  rewrite (parse_swap mv ex r _ g g2 G G2). fold r2. destruct (parse_from mv ex r2) as [v2|e|] eqn:K; cbn [rmap]; auto.
  pose proof (parse_swapped mv ex r _ v2 g2 G2 K) as EL. unfold alike. cbn [parsed_with_logic pp_project pp_file pp_library pp_resource pp_view pp_logic pp_resource_files]. rewrite EL.
  repeat (split; [reflexivity|]). split; [exact RA|]. unfold files_alike. destruct (pp_resource_files v2); [|exact I]. apply same_files_refl.
Qed.
Lemma open_blank_transfer mv ex p q dt r : open_project p -> ready_resources (sp_resources p) -> project_fits p dt -> project_into p = Ok q -> into_raw q r ->
  let p2 := set_screens (map blank (sp_screens p)) p in
  ready_project p2 /\ project_fits p2 dt /\ exists r2, project_into_raw p2 r2 /\
  match parse_from mv ex r2, parse_from mv ex r with Ok v2, Ok v => True | Err e2, Err e => e = e2 | Panic, Panic => True | _, _ => False end.
Proof.
  intros PP RR PF H W p2. pose proof (all_blank p) as KW. pose proof (open_recoded_ready p _ PP KW) as RP2. pose proof (recoded_fits p _ dt KW PF) as PF2. fold p2 in RP2, PF2.
  split; [exact RP2|]. split; [exact PF2|].
  destruct (ready_into p2 RP2 RR) as (q2 & H2). destruct (into_recoded p _ q q2 (forall2_impl _ _ _ _ well_recoded_some KW) H H2) as (E1 & E2 & E3 & E4 & E5 & E6).
  pose proof (raw_swap q q2 r E1 E2 E3 E4 E5 E6 W) as W2. set (r2 := raw_with_logic (logic_reconstruct (pp_logic q2)) r) in *. exists r2. split; [exists q2; auto|].
  destruct (filed_reads mv p q dt (open_filed p PP) PF H) as (_ & _ & g & _ & _ & _ & G & _). destruct (filed_reads mv p2 q2 dt (ready_filed _ RP2) PF2 H2) as (_ & _ & g2 & _ & _ & _ & G2 & _).
  destruct (raw_logic q r W) as [_ RL]. rewrite <- RL in G. rewrite (parse_swap mv ex r _ g g2 G G2). fold r2. destruct (parse_from mv ex r2); cbn [rmap]; auto.
Qed.
Lemma try_said rnd v p' p a : open_project p -> project_try_from rnd v = Ok p' -> f_activities (pp_file v) = map activity_of (sp_screens p) -> (forall s, In s a -> In s (sp_screens p)) ->
  (forall s, In s a -> exists lg, screen_logic_of s = Ok lg /\ sget (sc_java_name s) (pp_logic v) = Some lg) -> all_said a.
Proof.
  intros (PS & _ & _ & N2) TF EA IA G. apply Forall_forall. intros t It. destruct (G t It) as (lg & L & S). specialize (IA t It). pose proof IA as IA0. apply in_split in IA0 as (b & c & AB).
  rewrite Forall_forall in PS. assert (EAct : f_activities (pp_file v) = map activity_of b ++ activity_of t :: map activity_of c) by (rewrite EA, AB, map_app; reflexivity).
  destruct (C66_screen _ _ _ _ _ _ TF EAct) as (ve & le & fab & s' & _ & (_ & (o & U & EO) & _) & R). destruct (PS t IA) as (J & _).
  cbn [fi_filename activity_of] in U. rewrite <- J in U. destruct U as [[I _]|[_ ->]].
  - exfalso. rewrite AB, map_app in N2. cbn [map] in N2. apply NoDup_remove_2 in N2. apply N2, in_or_app. left.
    replace (map sc_java_name b) with (map view_name_to_logic (map fi_filename (map activity_of b))); [exact I|].
    rewrite !map_map. apply map_ext_in. intros z Iz. destruct (PS z) as (Jz & _); [rewrite AB; apply in_or_app; now left|]. now rewrite Jz.
  - rewrite S in EO. subst le. eapply read_said; eauto.
Qed.
Lemma loaded_said mv ex rnd p q dt r v p' : open_project p -> project_fits p dt -> project_into p = Ok q -> into_raw q r -> parse_from mv ex r = Ok v -> project_try_from rnd v = Ok p' ->
  all_said (code_kept (sp_screens p)).
Proof.
  intros PP PF H W K TF. destruct (filed_reads mv p q dt (open_filed p PP) PF H) as (a & b & g & AB & CA & CB & G & GS & _). rewrite AB, (all_said_split a b CA CB).
  destruct (raw_logic q r W) as [RFi RL]. apply parse_from_ok in K as (_ & K2 & _ & _ & _ & K6 & _). rewrite RL, G in K6. injection K6 as ->. rewrite RFi in K2.
  pose proof H as H0. apply into_inv in H0 as (? & ? & ? & ? & _ & _ & _ & _ & _ & _ & _ & EA & _).
  destruct (sp_screens p) as [|s0 l0] eqn:E0; [destruct a; [constructor|discriminate]|]. rewrite P_Files.C16_roundtrip_partial in K2 by (left; rewrite EA; discriminate). injection K2 as K2. rewrite K2 in EA.
  rewrite <- E0 in EA, AB. eapply (try_said rnd v p' p); eauto.
  - intros s I. rewrite AB. apply in_or_app. now left.
  - intros s I. destruct (GS s) as (lg & L & _ & X & _); [apply in_or_app; now left|]. eauto.
Qed.
Lemma said_memory_transfer p q : open_project p -> ready_resources (sp_resources p) -> all_said (sp_screens p) -> project_into p = Ok q ->
  ready_project (project_back p) /\ exists q2, project_into (project_back p) = Ok q2 /\ alike q2 q.
Proof.
  intros PP RR GA H. assert (KW : Forall2 well_recoded (sp_screens p) (map screen_back (sp_screens p))).
  { pose proof (said_kept_well p (sp_screens p) [] PP) as K. cbn [map] in K. rewrite !app_nil_r in K. auto. }
  pose proof (open_recoded_ready p _ PP KW) as RP2. fold (project_back p) in RP2. split; [exact RP2|].
  destruct (ready_into (project_back p) RP2 RR) as (q2 & H2). exists q2. split; [exact H2|]. destruct (into_recoded p _ q q2 (forall2_impl _ _ _ _ well_recoded_some KW) H H2) as (E1 & E2 & E3 & E4 & E5 & E6).
  unfold alike. rewrite E1, E2, E3, E4, E5, E6. repeat (split; [reflexivity|]). split; [|unfold files_alike; destruct (pp_resource_files q); [apply same_files_refl|exact I]].
  destruct (logic_memory p q (open_filed p PP) H) as [M N]. destruct (logic_memory _ q2 (ready_filed _ RP2) H2) as [M2 N2]. intros k. cbn [project_back set_screens sp_screens] in M2, N2.
  assert (NM : map sc_java_name (map screen_back (sp_screens p)) = map sc_java_name (sp_screens p)) by (rewrite map_map; reflexivity). rewrite NM in N2.
  destruct (in_dec (list_eq_dec N.eq_dec) k (map sc_java_name (sp_screens p))) as [I|I]; [|left; now rewrite (N k I), (N2 k I)].
  apply in_map_iff in I as (s & <- & I). destruct (M s I) as (lg & L & S). destruct (M2 (screen_back s) (in_map _ _ _ I)) as (lg2 & L2 & S2). change (sc_java_name (screen_back s)) with (sc_java_name s) in S2.
  right. exists lg2, lg. split; [exact S2|]. split; [exact S|]. destruct (logic_name _ _ L) as [X1 _]. destruct (logic_name _ _ L2) as [X2 _]. split; [rewrite X1, X2; reflexivity|].
  destruct PP as (PS & _). unfold all_said in GA. rewrite Forall_forall in PS, GA. intros. symmetry. apply (said_reads s); auto.
Qed.
Lemma memory_said rnd p q p' : open_project p -> project_into p = Ok q -> project_try_from rnd q = Ok p' -> all_said (sp_screens p).
Proof.
  intros PP H TF. destruct (logic_memory p q (open_filed p PP) H) as [M _]. apply into_inv in H as (? & ? & ? & ? & _ & _ & _ & _ & _ & _ & _ & EA & _). eapply try_said; eauto.
Qed.
