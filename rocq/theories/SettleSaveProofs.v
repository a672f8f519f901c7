(** Proofs about saving and loading projects whose code does not survive as it is: screens and files. *)
From Verif Require Import Base Str M_Color M_Raw M_Project M_File M_Library M_Resource M_View M_Logic M_Parsed A_Block A_View A_Screen A_Project
  SpecBlock SpecView SpecScreen SpecProject SpecLoad SpecSave BlockWriteProofs ScreenProofs ApiProjectProofs SaveProofs RemainProofs BackProofs SettleProofs P_Logic P_Parsed P_ApiProject P_Loading P_Save SpecBack SpecSettle.

(** ** Code *)
Lemma plain_back l c : code_plain l -> blocks_into l = Ok c -> forall l', blocks_try_from c = Ok l' <-> code_given l /\ l' = map block_back l.
Proof. intros (L & _ & P) H. apply BackProofs.back_iff; auto. now rewrite (into_sized _ _ H). Qed.
Lemma plain_into l : code_plain l -> exists c, blocks_into l = Ok c.
Proof. intros (L & H & _). now apply into_total. Qed.
Lemma settled_survives l : code_plain l -> code_given l -> survives (map block_back l).
Proof.
  intros (L & H & P) K. apply survives_kept; [pose proof (proj2 (code_back_small l)); lia|]. apply Forall_map. unfold code_given in K. rewrite Forall_forall in *. intros b I. apply back_kept; auto.
Qed.
Lemma settled_fits l : code_plain l -> code_given l -> code_fits l -> code_fits (map block_back l).
Proof.
  intros (L & H & P) K F. apply (code_colored l L H) in F. destruct (code_back_small l) as [C Z]. apply code_colored; [lia| |auto].
  apply Forall_map. unfold code_given in K. rewrite Forall_forall in *. intros b I. apply kept_no_holes, back_kept; auto.
Qed.
Lemma fits_nil : code_fits [].
Proof. intros c [= <-]. constructor. Qed.
Lemma given_nil : code_given [].
Proof. constructor. Qed.

(** ** Screens with other code *)
Definition recode (f : blocks -> blocks) (s : screen) : screen :=
  {| sc_layout_name := sc_layout_name s; sc_java_name := sc_java_name s; sc_layout := sc_layout s; sc_variables := sc_variables s;
     sc_list_variables := sc_list_variables s;
     sc_more_blocks := map (fun kv => (fst kv, {| am_name := am_name (snd kv); am_spec := am_spec (snd kv); am_code := f (am_code (snd kv)) |})) (sc_more_blocks s);
     sc_components := sc_components s;
     sc_events := map (fun e => {| ae_name := ae_name e; ae_type := ae_type e; ae_code := f (ae_code e) |}) (sc_events s);
     sc_fab := sc_fab s; sc_fullscreen := sc_fullscreen s; sc_toolbar := sc_toolbar s; sc_drawer := sc_drawer s; sc_fab_enabled := sc_fab_enabled s;
     sc_orientation := sc_orientation s; sc_theme := sc_theme s; sc_keyboard := sc_keyboard s |}.
Definition blank : screen -> screen := recode (fun _ => []).
Lemma settle_recode s : settle_screen s = recode (map block_back) s.
Proof. reflexivity. Qed.
Lemma cells_codes s : map snd (cells s) = screen_codes s.
Proof. unfold cells, screen_codes. rewrite map_app, !map_map. reflexivity. Qed.
Lemma cells_recode f s : cells (recode f s) = map (fun y => (fst y, f (snd y))) (cells s).
Proof. unfold cells, recode. cbn [sc_events sc_more_blocks]. rewrite map_app, !map_map. reflexivity. Qed.
Lemma raw_events_recode f s : raw_events (sc_events (recode f s)) = raw_events (sc_events s).
Proof. unfold raw_events, recode. cbn [sc_events]. induction (sc_events s) as [|e l IH]; [reflexivity|]. cbn [map filter].
  change (not_on_create {| ae_name := ae_name e; ae_type := ae_type e; ae_code := f (ae_code e) |}) with (not_on_create e). destruct (not_on_create e); cbn [map]; rewrite IH; reflexivity.
Qed.
Lemma raw_more_blocks_recode f s : raw_more_blocks (sc_more_blocks (recode f s)) = raw_more_blocks (sc_more_blocks s).
Proof. unfold raw_more_blocks, recode. cbn [sc_more_blocks]. rewrite map_map. reflexivity. Qed.
Lemma recode_has_code f s : has_code (recode f s) <-> has_code s.
Proof.
  unfold has_code, recode. cbn [sc_events sc_more_blocks]. destruct (sc_events s), (sc_more_blocks s); cbn; split; intros [H|H]; auto; try (elim H; reflexivity); try (left; discriminate); right; discriminate.
Qed.
Lemma recode_shared f s : f [] = [] -> shared_empty s -> shared_empty (recode f s).
Proof.
  intros F H a e b E X. unfold recode in E, X. cbn [sc_events sc_more_blocks] in E, X. apply map_eq_app in E as (a' & r & Es & <- & Er). apply map_eq_cons in Er as (e' & b' & -> & <- & <-).
  cbn [ae_code]. rewrite (H a' e' b' Es); [exact F|]. destruct X as [(o & I & K)|(kv & I & K)].
  - left. rewrite <- map_app in I. apply in_map_iff in I as (o' & <- & I). exists o'. split; [exact I|exact K].
  - right. apply in_map_iff in I as (kv' & <- & I). exists kv'. split; [exact I|exact K].
Qed.
Lemma recode_first f s : on_create_first (sc_events s) -> on_create_first (sc_events (recode f s)).
Proof.
  unfold recode. cbn [sc_events]. intros [H|(e & r & -> & N & T & H)].
  - left. intros e I. apply in_map_iff in I as (e' & <- & I). apply (H e' I).
  - right. eexists. eexists. split; [reflexivity|]. cbn [ae_name ae_type]. split; [exact N|]. split; [exact T|]. intros x I. apply in_map_iff in I as (x' & <- & I). apply (H x' I).
Qed.
(** if the new code survives, the screen is ready *)
Lemma recode_ready f s : f [] = [] -> plain_screen s -> (forall l, In l (screen_codes s) -> survives (f l)) -> ready_screen (recode f s).
Proof.
  intros F (J & NM & NC & M & _ & SH & OC & L) S. unfold screen_codes in S. split; [exact J|]. split; [|split; [exact NC|split; [|exact L]]].
  - unfold recode. cbn [sc_more_blocks]. rewrite map_map. exact NM.
  - split; [|split; [|split; [now apply recode_shared|now apply recode_first]]].
    + unfold recode. cbn [sc_more_blocks]. apply Forall_map. rewrite Forall_forall in *. intros kv I. destruct (M kv I) as (A & B & C). unfold good_more_block. cbn [fst snd am_name am_spec am_code].
      split; [exact A|]. split; [exact B|]. split; [exact C|]. apply S, in_or_app. right. apply in_map_iff. eauto.
    + unfold recode. cbn [sc_events]. apply Forall_map, Forall_forall. intros e I. cbn [ae_code]. apply S, in_or_app. left. apply in_map_iff. eauto.
Qed.
Lemma recode_fits f s : (forall l, In l (screen_codes s) -> code_fits l -> code_fits (f l)) -> screen_fits s -> screen_fits (recode f s).
Proof.
  intros S (A & B & C & D & E & EF & MF & M1 & M2). unfold screen_codes in S. unfold screen_fits. unfold recode at 1 2 3 4 5. cbn [sc_layout_name sc_layout sc_fab sc_variables sc_list_variables].
  split; [exact A|]. split; [exact B|]. split; [exact C|]. split; [exact D|]. split; [exact E|]. unfold recode. cbn [sc_events sc_more_blocks]. split; [|split; [|split]].
  - apply Forall_map. rewrite Forall_forall in *. intros e I. destruct (EF e I) as (X1 & X2 & X3 & X4). split; [exact X1|]. split; [exact X2|]. split; [exact X3|]. cbn [ae_code]. apply S; [|exact X4].
    apply in_or_app. left. apply in_map_iff. eauto.
  - apply Forall_map. rewrite Forall_forall in *. intros kv I. destruct (MF kv I) as (X1 & X2 & X3 & X4 & X5). split; [exact X1|]. split; [exact X2|]. split; [exact X3|]. split; [exact X4|]. cbn [fst snd am_code]. apply S; [|exact X5].
    apply in_or_app. right. apply in_map_iff. eauto.
  - intros k m r c n X Y. destruct (sc_more_blocks s) as [|[k' m'] l]; [discriminate|]. cbn in X. injection X as <- _ _. eapply M1; eauto.
  - intros r k m X. destruct (sc_more_blocks s) as [|[k' m'] l _] eqn:Em using rev_ind; [destruct r; discriminate|]. rewrite map_app in X. cbn [map] in X. apply app_inj_tail in X as [_ X]. injection X as _ <-. cbn [am_spec fst snd]. eapply M2. reflexivity.
Qed.

(** ** What is read from a screen whose code is settled *)
Definition rel (bc bc' : smap block_container) : Prop :=
  forall k, match sget k bc, sget k bc' with None, None => True | Some c, Some c' => blocks_try_from c' = blocks_try_from c | _, _ => False end.
Lemma rel_insert k c c' bc bc' : blocks_try_from c' = blocks_try_from c -> rel bc bc' -> rel (sinsert k c bc) (sinsert k c' bc').
Proof.
  intros E R x. destruct (list_eq_dec N.eq_dec x k) as [->|Ne]; [now rewrite !sget_insert_same|]. rewrite !sget_insert_other by exact Ne. apply R.
Qed.
Lemma rel_all l : forall cs cs' bc bc', Forall (fun y => code_plain (snd y) /\ code_given (snd y)) l -> Forall2 writes l cs -> Forall2 writes (map (fun y => (fst y, map block_back (snd y))) l) cs' -> rel bc bc' ->
  rel (ins_all (kbc l cs) bc) (ins_all (kbc (map (fun y => (fst y, map block_back (snd y))) l) cs') bc').
Proof.
  induction l as [|y l IH]; intros cs cs' bc bc' G W W' R; inversion W as [|? c ? cs1 W1 W2]; inversion W' as [|? c' ? cs1' W1' W2']; subst; [exact R|].
  apply Forall_cons_iff in G as [[P K] G]. change (rel (ins_all (kbc l cs1) (sinsert (fst y) c bc)) (ins_all (kbc (map (fun y => (fst y, map block_back (snd y))) l) cs1') (sinsert (fst y) c' bc'))).
  apply IH; auto. apply rel_insert; [|exact R]. unfold writes in *. cbn [snd] in W1'.
  destruct (settled_survives _ P K) as (d & D1 & D2). pose proof (eq_trans (eq_sym D1) W1') as Ed. injection Ed as ->. rewrite D2. symmetry. now apply (plain_back _ _ P W1).
Qed.
Lemma settled_reads s lg lg' ln jn fe ve fab : plain_screen s -> Forall code_given (screen_codes s) -> screen_logic_of s = Ok lg -> screen_logic_of (settle_screen s) = Ok lg' ->
  screen_from_parsed ln jn fe ve lg' fab = screen_from_parsed ln jn fe ve lg fab.
Proof.
  intros (_ & _ & _ & _ & P & _) K H H'. rewrite settle_recode in H'. apply screen_logic_iff in H as (cs & W & ->). apply screen_logic_iff in H' as (cs' & W' & ->).
  assert (R : rel (ins_all (kbc (cells s) cs) []) (ins_all (kbc (cells (recode (map block_back) s)) cs') [])).
  { rewrite cells_recode in *. apply rel_all; auto; [|intros k; exact I]. rewrite <- cells_codes in P, K. rewrite Forall_map in P, K. rewrite Forall_forall in *. auto. }
  apply same_code_reads; cbn [logic_with sl_block_containers sl_variables sl_list_variables sl_components sl_events sl_more_blocks]; try reflexivity.
  - intros k. specialize (R k). destruct (sget k _), (sget k _); cbn [or_empty]; try contradiction; auto.
  - specialize (R INITIALIZE). unfold smem, lmem. fold (@sget block_container). destruct (sget INITIALIZE (ins_all (kbc (cells s) cs) [])), (sget INITIALIZE (ins_all (kbc (cells (recode (map block_back) s)) cs') [])); try contradiction; reflexivity.
  - now rewrite raw_events_recode.
  - now rewrite raw_more_blocks_recode.
Qed.
Lemma blank_cut s lg lg' : screen_logic_of s = Ok lg -> screen_logic_of (blank s) = Ok lg' -> without_containers lg' = without_containers lg.
Proof.
  intros H H'. apply screen_logic_iff in H as (cs & W & ->). apply screen_logic_iff in H' as (cs' & W' & ->). unfold without_containers, logic_with. cbn [sl_name sl_variables sl_list_variables sl_components sl_events sl_more_blocks].
  unfold blank. now rewrite raw_events_recode, raw_more_blocks_recode.
Qed.

(** ** Which code has been read *)
Lemma same_key {V} (l : smap V) y z : NoDup (map fst l) -> In y l -> In z l -> fst z = fst y -> z = y.
Proof.
  induction l as [|x l IH]; [intros _ []|]. cbn [map]. intros N I J E. inversion N as [|? ? N1 N2]; subst. destruct I as [<-|I], J as [<-|J]; auto.
  - elim N1. rewrite <- E. now apply in_map.
  - elim N1. rewrite E. now apply in_map.
Qed.
Lemma written_at s cs y : NoDup (map fst (sc_more_blocks s)) -> shared_empty s -> Forall2 writes (cells s) cs -> In y (cells s) -> snd y <> [] \/ In y (map mcell (sc_more_blocks s)) ->
  exists c, blocks_into (snd y) = Ok c /\ sget (fst y) (ins_all (kbc (cells s) cs) []) = Some c.
Proof.
  intros NM SH W I C. destruct (last_writer _ _ (fst y) W) as (a & z & b & c & E & K & Nb & B & G); [now apply in_map|]. exists c. split; [|exact G].
  replace (snd y) with (snd z); [exact B|]. f_equal. destruct (in_dec (list_eq_dec N.eq_dec) (fst y) (map fst (map mcell (sc_more_blocks s)))) as [Im|Im].
  - assert (Iy : In y (map mcell (sc_more_blocks s))).
    { destruct C as [C|C]; [|exact C]. unfold cells in I. apply in_app_or in I as [I|I]; [|exact I]. elim C. apply in_split in I as (ea & eb & Ee). apply (proj1 (shared_cells s) SH ea y eb Ee).
      rewrite map_app. apply in_or_app. now left. }
    assert (Iz : In z (map mcell (sc_more_blocks s))).
    { unfold cells in E. apply app_eq_app in E as (l & [[E1 E2]|[E1 E2]]).
      - destruct l as [|x l]; [cbn in E2; rewrite <- E2; now left|]. injection E2 as <- E2. elim Nb. rewrite E2, map_app. apply in_or_app. now right.
      - rewrite E2. apply in_or_app. right. now left. }
    eapply same_key; eauto. now apply mcell_nodup.
  - unfold cells in I. apply in_app_or in I as [I|I]; [|elim Im; now apply in_map]. destruct C as [C|C]; [|elim Im; now apply in_map]. apply in_split in I as (ea & eb & Ee).
    assert (Iz : In z (cells s)) by (rewrite E; apply in_or_app; right; now left). unfold cells in Iz. rewrite Ee in Iz.
    destruct (in_dec (list_eq_dec N.eq_dec) (fst y) (map fst (map mcell (sc_more_blocks s) ++ ea ++ eb))) as [X|X]; [elim C; now apply (proj1 (shared_cells s) SH ea y eb Ee)|].
    assert (NZ : ~ In z (map mcell (sc_more_blocks s) ++ ea ++ eb)) by (intros Q; apply X; rewrite <- K; now apply in_map).
    rewrite !in_app_iff in Iz, NZ. cbn in Iz. destruct Iz as [[Iz|[Iz|Iz]]|Iz]; tauto || auto.
Qed.
Lemma same_strip (l m : list aevent) raws : Forall2 (fun e a => event_try_from e = Ok (strip a)) raws l -> Forall2 (fun e a => event_try_from e = Ok (strip a)) raws m ->
  map get_block_container_id l = map get_block_container_id m.
Proof.
  intros H. revert m. induction H as [|r x raws l H F IH]; intros m G; inversion G as [|? y ? m' G1 G2]; subst; [reflexivity|]. cbn. f_equal; [|now apply IH].
  rewrite H in G1. injection G1 as N T. unfold get_block_container_id. now rewrite N, T.
Qed.
Lemma read_given s lg ln jn fe ve fab s' : plain_screen s -> screen_logic_of s = Ok lg -> screen_from_parsed ln jn fe ve lg fab = Ok s' -> Forall code_given (screen_codes s).
Proof.
  intros (_ & NM & NC & M & P & SH & OC & _) H R. apply screen_logic_iff in H as (cs & W & ->).
  assert (V : exists views, parse_raw_layout ve = Ok views).
  { unfold screen_from_parsed in R. apply bind_ok in R as (views & V & _). apply map_err_ok in V. eauto. }
  destruct V as (views & V). destruct (proj1 (from_parsed_logic _ _ _ _ _ _ _ _ _ NC V) R) as (ms & bc & es & T & E & _).
  rewrite with_on_create_written in E by exact W. cbn [logic_with sl_more_blocks or_empty sl_block_containers] in T.
  apply take_more_blocks_iff in T as (T1 & T2 & ->). apply take_events_iff in E as (E1 & E2).
  apply (on_create_iff _ _ (init_written s cs W)) in OC. pose proof (same_strip _ _ _ E1 OC) as ES.
  assert (MK : map fst ms = map fst (sc_more_blocks s)).
  { rewrite (reads_keys _ _ T1), scollect_nodup; now rewrite raw_more_blocks_keys. }
  set (bc := ins_all (kbc (cells s) cs) []) in *.
  assert (MK' : map (fun r : str * amore_block => more_block_container (fst r)) ms = map fst (map mcell (sc_more_blocks s))).
  { rewrite map_map. cbn [fst mcell]. rewrite <- (map_map fst more_block_container ms), <- (map_map fst more_block_container (sc_more_blocks s)). now rewrite MK. }
  assert (RM : forall y, In y (map mcell (sc_more_blocks s)) -> exists t, blocks_try_from (or_empty (sget (fst y) bc)) = Ok t).
  { intros y I. apply (in_map fst) in I as Ik. rewrite <- MK' in Ik. apply in_map_iff in Ik as (r & Er & Ir). apply in_split in Ir as (a & b & ->).
    apply (proj1 (grab_each (fun r : str * amore_block => more_block_container (fst r)) (fun c r => blocks_try_from c = Ok (am_code (snd r))) _ bc)) with (a := a) (y := r) (b := b) in T2; [|reflexivity].
    exists (am_code (snd r)). rewrite Er in T2. unfold rd in T2. replace (mem (fst y) (map _ a)) with false in T2; [exact T2|]. symmetry. apply mem_not. intros Q.
    pose proof (mcell_nodup _ NM) as ND. rewrite <- MK', map_app in ND. cbn [map] in ND. apply NoDup_remove_2 in ND. apply ND, in_or_app. left. now rewrite Er. }
  assert (RE : forall y, In y (map ecell (sc_events s)) -> snd y <> [] -> exists t, blocks_try_from (or_empty (sget (fst y) bc)) = Ok t).
  { intros y I C. apply in_split in I as (ea & eb & Ee).
    assert (X : ~ In (fst y) (map fst (map mcell (sc_more_blocks s) ++ ea ++ eb))) by (intros X; apply C; now apply (proj1 (shared_cells s) SH ea y eb Ee)).
    rewrite !map_app, !in_app_iff in X.
    assert (EK : map get_block_container_id es = map fst ea ++ fst y :: map fst eb).
    { rewrite ES. replace (map get_block_container_id (sc_events s)) with (map fst (map ecell (sc_events s))) by (rewrite map_map; reflexivity). rewrite Ee, map_app. reflexivity. }
    apply map_eq_app in EK as (a & r & -> & Ea & Er). apply map_eq_cons in Er as (e & b & -> & Ke & Eb).
    apply (proj1 (grab_each get_block_container_id (fun c a => blocks_try_from c = Ok (ae_code a)) _ _)) with (a := a) (y := e) (b := b) in E2; [|reflexivity].
    exists (ae_code e). rewrite Ke, Ea in E2. unfold rd in E2. replace (mem (fst y) (map fst ea)) with false in E2 by (symmetry; apply mem_not; tauto).
    rewrite grab_left in E2. replace (mem (fst y) _) with false in E2; [exact E2|]. symmetry. apply mem_not. rewrite MK'. tauto. }
  rewrite <- cells_codes in *. rewrite Forall_map in *. rewrite Forall_forall in *. intros y I.
  assert (D : snd y = [] \/ (snd y <> [] \/ In y (map mcell (sc_more_blocks s)))) by (destruct (snd y); [now left|right; left; discriminate]).
  destruct D as [D|D]; [rewrite D; constructor|]. destruct (written_at s cs y NM SH W I D) as (c & B & G). fold bc in G.
  assert (RR : exists t, blocks_try_from (or_empty (sget (fst y) bc)) = Ok t).
  { unfold cells in I. apply in_app_or in I as [I|I]; [|now apply RM]. destruct D as [D|D]; [now apply RE|now apply RM]. }
  destruct RR as (t & RR). rewrite G in RR. cbn [or_empty] in RR. apply (plain_back _ _ (P y I) B) in RR. apply RR.
Qed.

(** ** Reading does not panic *)
Definition safe_logic (le : screen_logic) : Prop :=
  (forall k c, In (k, c) (sl_block_containers le) -> blocks_try_from c <> Panic) /\ (forall id mb, In (id, mb) (or_empty (sl_more_blocks le)) -> @parse_wo_params ablock (mb_spec mb) <> Panic).
Lemma under_safe le used k : safe_logic le -> ~ code_under (sl_block_containers le) used k Panic.
Proof.
  intros [G _] [[_ H]|[(_ & _ & H)|(_ & c & S & H)]]; try discriminate. symmetry in H. revert H. eapply G. eapply P_Loading.sget_in; eauto.
Qed.
Lemma screen_safe ln jn fe ve le fab : safe_logic le -> screen_from_parsed ln jn fe ve le fab <> Panic.
Proof.
  intros G H. apply C67_reads in H. rename H into R. unfold screen_reads in R.
  pose proof (P_ApiView.C38_no_panic ve) as NV. destruct (parse_raw_layout ve) as [views| |]; cbn [map_err after] in R; try congruence.
  destruct R as (ms & M & R). assert (NM : ms <> Panic).
  { revert M. apply in_order_nopanic. intros b [id mb] a E S. unfold more_block_step in S. cbn [fst snd] in S.
    destruct (parse_wo_params (mb_spec mb)) as [sp| |] eqn:P; cbn [map_err after] in S; try discriminate.
    - destruct S as (c & C & S). destruct c as [c| |]; cbn [map_err after] in S; try discriminate. now apply under_safe in C.
    - destruct G as [_ G]. eapply G; [|exact P]. rewrite E. apply in_app_iff. right. now left. }
  destruct ms as [ms| |]; cbn [after] in R; try congruence.
  destruct R as (cs & C & R). assert (NC : cs <> Panic).
  { revert C. apply in_order_nopanic. intros b c a _ S. unfold component_step in S. destruct (from_parser_component c); discriminate. }
  destruct cs as [cs| |]; cbn [after] in R; try congruence.
  destruct R as (raw & es & _ & EV & R). assert (NE : es <> Panic).
  { revert EV. apply in_order_nopanic. intros b c a _ [[_ S]|(e & k & cd & _ & _ & K & S)]; [discriminate|].
    destruct cd as [cd| |]; cbn [map_err after] in S; try discriminate. now apply under_safe in K. }
  destruct es as [es| |]; cbn [after] in R; congruence.
Qed.
Lemma project_safe rnd v : (forall k le, sget k (pp_logic v) = Some le -> safe_logic le) -> project_try_from rnd v <> Panic.
Proof.
  intros G H. apply C66_reads in H. rename H into R. unfold project_reads in R.
  destruct R as (ss & S & R). assert (N : ss <> Panic).
  { revert S. apply in_order_nopanic. intros b fe a _ (ve & le & fab & s & (_ & (o & U & ->) & _) & Q & E). destruct s; try discriminate E.
    apply C67_reads in Q. revert Q. apply screen_safe.
    destruct U as [[_ ->]|[_ ->]]; [split; cbn; intros; contradiction|]. destruct (sget _ _) as [le|] eqn:SG; [|split; cbn; intros; contradiction]. eapply G; eauto. }
  destruct ss as [ss| |]; cbn [after] in R; try congruence. clear N S.
  destruct R as (cvs & S & R). assert (N : cvs <> Panic).
  { revert S. apply in_order_nopanic. intros b fe a _ (o & _ & Q). destruct o as [lay|]; [|discriminate]. pose proof (P_ApiView.C38_no_panic lay).
    destruct (parse_raw_layout lay); cbn [map_err after] in Q; congruence. }
  destruct cvs as [cvs| |]; cbn [after] in R; try congruence. clear N S.
  do 3 (destruct R as (? & S & R); destruct S as [[_ ->]|[[_ ->]|(_ & _ & ->)]]; cbn [after] in R; try discriminate R).
  all: do 3 (destruct R as (? & S & R); apply in_order_nopanic in S;
         [|intros ? it ? _ Q; unfold resource_step in Q; destruct (pp_resource_files v); cbn [option_map] in Q; [destruct Q as ([] & _ & Q)|]; discriminate];
       match type of S with ?x <> Panic => destruct x as [?| |]; cbn [after] in R; try congruence end; clear S).
  all: destruct R as (? & _ & R); discriminate.
Qed.
Lemma plain_logic_safe s lg : plain_screen s -> screen_logic_of s = Ok lg -> safe_logic lg /\ safe_logic (without_containers lg).
Proof.
  intros (_ & NM & _ & M & P & _) H. apply screen_logic_iff in H as (cs & W & ->). rewrite <- cells_codes in P. rewrite Forall_map in P. rewrite Forall_forall in M, P.
  assert (SM : forall id mb, In (id, mb) (scollect (raw_more_blocks (sc_more_blocks s))) -> @parse_wo_params ablock (mb_spec mb) <> Panic).
  { intros id mb I. rewrite scollect_nodup in I by now rewrite raw_more_blocks_keys. unfold raw_more_blocks in I. apply in_map_iff in I as (kv & E & I). injection E as _ <-.
    destruct (M kv I) as (_ & A & B). change (mb_spec _) with (content_to_string (am_spec (snd kv))). rewrite (proj2 (P_Block.C32_parse_printed _) (conj A B)). discriminate. }
  split; (split; cbn [logic_with without_containers sl_block_containers sl_more_blocks or_empty]; [|exact SM]); [|intros k c []].
  intros k c I. apply in_ins_all, (in_kbc _ _ _ _ W) in I as (y & I & _ & Wr). destruct (P y I) as (L & _ & PL). unfold writes in Wr.
  apply (back_safe _ _ Wr); [|exact PL]. now rewrite (into_sized _ _ Wr).
Qed.

(** ** Projects with other code *)
Definition recoded (s s2 : screen) : Prop := exists f, s2 = recode f s.
Lemma put_screens_recoded l l2 : Forall2 recoded l l2 -> forall lgs lgs2 lays fabs x y z x2 y2 z2, put_screens l lgs lays fabs = Ok (x, y, z) -> put_screens l2 lgs2 lays fabs = Ok (x2, y2, z2) -> y2 = y /\ z2 = z.
Proof.
  induction 1 as [|s s2 l l2 (f & ->) _ IH]; intros lgs lgs2 lays fabs x y z x2 y2 z2 H H2; rewrite put_screens_eq in H, H2.
  - injection H as _ <- <-. injection H2 as _ <- <-. auto.
  - apply bind_ok in H as (lg & _ & H). apply bind_ok in H2 as (lg2 & _ & H2). eapply IH; [exact H|exact H2].
Qed.
Lemma into_recoded p l2 q q2 : Forall2 recoded (sp_screens p) l2 -> project_into p = Ok q -> project_into (set_screens l2 p) = Ok q2 ->
  pp_project q2 = pp_project q /\ pp_file q2 = pp_file q /\ pp_library q2 = pp_library q /\ pp_resource q2 = pp_resource q /\ pp_view q2 = pp_view q /\ pp_resource_files q2 = pp_resource_files q.
Proof.
  intros F. unfold project_into, set_screens. cbn [sp_custom_icon sp_metadata sp_colors sp_screens sp_custom_views sp_libraries sp_resources sp_automatic].
  intros H H2. apply bind_ok in H as ([[lgs lays] fabs] & S & H). apply bind_ok in H2 as ([[lgs2 lays2] fabs2] & S2 & H2). destruct (put_screens_recoded _ _ F _ _ _ _ _ _ _ _ _ _ S S2) as [-> ->].
  apply bind_ok in H as ([im imf] & I & H). rewrite I in H2. cbn [bind] in H2.
  apply bind_ok in H as ([so sof] & O & H). rewrite O in H2. cbn [bind] in H2. apply bind_ok in H as ([fo fof] & Fo & H). rewrite Fo in H2. cbn [bind] in H2.
  injection H as <-. injection H2 as <-. cbn. assert (A : map activity_of l2 = map activity_of (sp_screens p)).
  { clear - F. induction F as [|s s2 l l2 (f & ->) _ IH]; [reflexivity|]. cbn [map]. now rewrite IH. }
  repeat split; try reflexivity. now rewrite A.
Qed.
Lemma plain_filed p : plain_project p -> filed_project p.
Proof.
  intros (PS & _ & N1 & N2). split; [|auto]. eapply Forall_impl; [|exact PS]. intros s (J & NM & _ & M & _). split; [exact J|]. split; [exact NM|]. eapply Forall_impl; [|exact M]. intros kv (E & _). exact E.
Qed.
Lemma plain_logic s : plain_screen s -> exists lg, screen_logic_of s = Ok lg.
Proof.
  intros (_ & _ & _ & _ & P & _). rewrite <- cells_codes in P. rewrite Forall_map in P.
  assert (W : exists cs, Forall2 writes (cells s) cs).
  { induction P as [|y l P _ (cs & IH)]; [exists []; constructor|]. destruct (plain_into _ P) as (c & C). exists (c :: cs). constructor; [exact C|exact IH]. }
  destruct W as (cs & W). eexists. apply screen_logic_iff. eauto.
Qed.
Lemma plain_project_into p : plain_project p -> ready_resources (sp_resources p) -> exists q, project_into p = Ok q.
Proof.
  intros (PS & _) RR. destruct (put_screens_ok (sp_screens p)) with (lgs := @nil (str * screen_logic)) (lays := @nil (str * layout)) (fabs := @nil (str * android_view)) as ([[? ?] ?] & E1).
  { eapply Forall_impl; [|exact PS]. intros s P. destruct (plain_logic s P) as (lg & E). eauto. }
  unfold ready_resources, resources_of in RR.
  destruct (put_resources_ok (sp_automatic p) (re_images (sp_resources p)) [] (proj2 (RR RImage _ (or_introl eq_refl)))) as ([? ?] & E2).
  destruct (put_resources_ok (sp_automatic p) (re_sounds (sp_resources p)) [] (proj2 (RR RSound _ (or_intror (or_introl eq_refl))))) as ([? ?] & E3).
  destruct (put_resources_ok (sp_automatic p) (re_fonts (sp_resources p)) [] (proj2 (RR RFont _ (or_intror (or_intror (or_introl eq_refl)))))) as ([? ?] & E4).
  unfold project_into. rewrite E1. cbn [bind]. rewrite E2. cbn [bind]. rewrite E3. cbn [bind]. rewrite E4. cbn [bind]. eauto.
Qed.
Definition well_recoded (s s2 : screen) : Prop :=
  exists f, f [] = [] /\ s2 = recode f s /\ forall l, In l (screen_codes s) -> survives (f l) /\ (code_fits l -> code_fits (f l)).
Lemma settle_well s : plain_screen s -> Forall code_given (screen_codes s) -> well_recoded s (settle_screen s).
Proof.
  intros (_ & _ & _ & _ & P & _) K. exists (map block_back). split; [reflexivity|]. split; [reflexivity|]. rewrite Forall_forall in P, K. intros l I. split; [apply settled_survives|apply settled_fits]; auto.
Qed.
Lemma blank_well s : well_recoded s (blank s).
Proof. exists (fun _ => []). split; [reflexivity|]. split; [reflexivity|]. intros l _. split; [apply survives_nil|intros _; apply fits_nil]. Qed.
Lemma well_recoded_some s s2 : well_recoded s s2 -> recoded s s2.
Proof. intros (f & _ & E & _). exists f. exact E. Qed.
Lemma recoded_names l l2 : Forall2 recoded l l2 -> map sc_layout_name l2 = map sc_layout_name l /\ map sc_java_name l2 = map sc_java_name l /\ map sc_layout l2 = map sc_layout l.
Proof.
  induction 1 as [|s s2 l l2 (f & ->) _ (IH1 & IH2 & IH3)]; [auto|]. cbn [map]. rewrite IH1, IH2, IH3. auto.
Qed.
Lemma forall2_impl {A B} (P Q : A -> B -> Prop) l m : (forall x y, P x y -> Q x y) -> Forall2 P l m -> Forall2 Q l m.
Proof. intros I. induction 1; constructor; auto. Qed.
Lemma recoded_ready p l2 : plain_project p -> Forall2 well_recoded (sp_screens p) l2 -> ready_project (set_screens l2 p).
Proof.
  intros (PS & CV & N1 & N2) F. pose proof (recoded_names _ _ (forall2_impl _ _ _ _ well_recoded_some F)) as (E1 & E2 & _).
  unfold ready_project. cbn [set_screens sp_screens sp_custom_views]. rewrite E1, E2. split; [|auto]. clear - PS F. induction F as [|s s2 l l2 (f & F0 & -> & S) _ IH]; [constructor|].
  apply Forall_cons_iff in PS as [P PS]. constructor; [|auto]. apply recode_ready; auto. intros x I. apply S, I.
Qed.
Lemma recoded_fits p l2 dt : Forall2 well_recoded (sp_screens p) l2 -> project_fits p dt -> project_fits (set_screens l2 p) dt.
Proof.
  intros F (A & B & C & D & E & G & S & V). unfold project_fits. cbn [set_screens sp_metadata sp_colors sp_screens sp_custom_views]. repeat (split; [assumption|]). split; [|exact V].
  clear - F S. induction F as [|s s2 l l2 (f & F0 & -> & R) _ IH]; [constructor|]. apply Forall_cons_iff in S as [P S]. constructor; [|auto]. apply recode_fits; auto. intros x I. apply R, I.
Qed.

(** ** Files with other code *)
Definition raw_with_logic (t : str) (r : raw_project) : raw_project :=
  {| rp_project := rp_project r; rp_file := rp_file r; rp_library := rp_library r; rp_resource := rp_resource r; rp_view := rp_view r; rp_logic := t;
     rp_resource_files := rp_resource_files r |}.
Definition parsed_with_logic (g : logic) (v : parsed_project) : parsed_project :=
  {| pp_project := pp_project v; pp_file := pp_file v; pp_library := pp_library v; pp_resource := pp_resource v; pp_view := pp_view v; pp_logic := g;
     pp_resource_files := pp_resource_files v |}.
Lemma parse_swap mv ex r t g g2 : logic_parse mv (rp_logic r) = Ok g -> logic_parse mv t = Ok g2 -> parse_from mv ex r = rmap (parsed_with_logic g) (parse_from mv ex (raw_with_logic t r)).
Proof.
  intros G G2. unfold parse_from, raw_with_logic. cbn [rp_project rp_file rp_library rp_resource rp_view rp_logic rp_resource_files]. rewrite G, G2.
  destruct (project_parse (rp_project r)); cbn [map_err bind rmap]; try reflexivity. destruct (file_parse (rp_file r)); cbn [map_err bind rmap]; try reflexivity.
  destruct (library_parse (rp_library r)); cbn [map_err bind rmap]; try reflexivity. destruct (resource_parse (rp_resource r)); cbn [map_err bind rmap]; try reflexivity.
  destruct (view_parse (rp_view r)); cbn [map_err bind rmap]; try reflexivity. destruct (rp_resource_files r) as [ws|]; [|reflexivity]. destruct (res_files_try_from ex ws); reflexivity.
Qed.
Lemma parse_swapped mv ex r t v g2 : logic_parse mv t = Ok g2 -> parse_from mv ex (raw_with_logic t r) = Ok v -> pp_logic v = g2.
Proof. intros G H. apply parse_from_ok in H as (_ & _ & _ & _ & _ & H & _). cbn [raw_with_logic rp_logic] in H. congruence. Qed.
Lemma raw_swap q q2 r : pp_project q2 = pp_project q -> pp_file q2 = pp_file q -> pp_library q2 = pp_library q -> pp_resource q2 = pp_resource q -> pp_view q2 = pp_view q -> pp_resource_files q2 = pp_resource_files q ->
  into_raw q r -> into_raw q2 (raw_with_logic (logic_reconstruct (pp_logic q2)) r).
Proof.
  intros E1 E2 E3 E4 E5 E6 [D F]. unfold into_raw, data_files, raw_with_logic in *. rewrite E1, E2, E3, E4, E5, E6. cbn [rp_project rp_file rp_library rp_resource rp_view rp_logic rp_resource_files]. split; [|exact F].
  apply bind_ok in D as (t & T & D). rewrite T. cbn [bind]. injection D as <- <- <- <- <- _. reflexivity.
Qed.
Lemma raw_logic q r : into_raw q r -> rp_file r = file_reconstruct (pp_file q) /\ rp_logic r = logic_reconstruct (pp_logic q).
Proof. intros [D _]. unfold data_files in D. apply bind_ok in D as (t & T & D). injection D as _ <- _ _ _ <-. auto. Qed.
Lemma split_unique a b a' b' : a ++ b = a' ++ b' -> Forall has_code a -> (forall y r, b = y :: r -> ~ has_code y) -> Forall has_code a' -> (forall y r, b' = y :: r -> ~ has_code y) -> a' = a /\ b' = b.
Proof.
  intros E A B A' B'. apply app_eq_app in E as (l & [[-> E]|[-> E]]).
  - destruct l as [|x l]; [rewrite app_nil_r; cbn in E; auto|]. apply Forall_app in A as [_ A]. apply Forall_inv in A. elim (B' x (l ++ b)); auto.
  - destruct l as [|x l]; [rewrite app_nil_r; cbn in E; auto|]. apply Forall_app in A' as [_ A']. apply Forall_inv in A'. elim (B x (l ++ b')); auto.
Qed.
Lemma all_given_split a b : Forall has_code a -> (forall y r, b = y :: r -> ~ has_code y) -> (all_given (code_kept (a ++ b)) <-> all_given a).
Proof.
  intros A B. rewrite (code_kept_split a b A B). unfold all_given. rewrite Forall_app. split; [tauto|]. intros H. split; [exact H|]. apply Forall_map, Forall_forall. intros s _.
  apply Forall_forall. intros l I. unfold screen_codes, without_code in I. cbn [sc_events sc_more_blocks] in I. rewrite !map_map in I. cbn [ae_code am_code snd] in I.
  apply in_app_or in I as [I|I]; apply in_map_iff in I as (x & <- & _); constructor.
Qed.
Definition kept_settled (a b : list screen) (p : sw_project) : sw_project := set_screens (map settle_screen a ++ map blank b) p.
Lemma kept_well p a b : plain_project p -> sp_screens p = a ++ b -> all_given a -> Forall2 well_recoded (sp_screens p) (map settle_screen a ++ map blank b).
Proof.
  intros (PS & _) E G. rewrite E in *. apply Forall_app in PS as [PA _]. apply Forall2_app.
  - clear E. induction PA as [|s l P _ IH]; [constructor|]. apply Forall_cons_iff in G as [G1 G2]. constructor; [|auto]. now apply settle_well.
  - clear. induction b as [|s l IH]; constructor; [apply blank_well|exact IH].
Qed.
Lemma all_blank p : Forall2 well_recoded (sp_screens p) (map blank (sp_screens p)).
Proof. induction (sp_screens p) as [|s l IH]; constructor; [apply blank_well|exact IH]. Qed.
Lemma logic_swapped mv p q q2 dt a b g : plain_project p -> project_fits p dt -> sp_screens p = a ++ b -> Forall has_code a -> (forall y r, b = y :: r -> ~ has_code y) -> all_given a ->
  project_into p = Ok q -> project_into (kept_settled a b p) = Ok q2 -> logic_parse mv (logic_reconstruct (pp_logic q)) = Ok g ->
  exists g2, logic_parse mv (logic_reconstruct (pp_logic q2)) = Ok g2 /\ forall k, reads_as (sget k g2) (sget k g).
Proof.
  intros PP PF AB CA CB GA H H2 G. pose proof (kept_well p a b PP AB GA) as KW. fold (kept_settled a b p) in *.
  pose proof (ready_filed _ (recoded_ready p _ PP KW)) as RF2. pose proof (recoded_fits p _ dt KW PF) as PF2. fold (kept_settled a b p) in RF2, PF2.
  destruct (filed_reads mv p q dt (plain_filed p PP) PF H) as (a1 & b1 & g1 & AB1 & CA1 & CB1 & G1 & GS1 & GN1). rewrite AB in AB1. destruct (split_unique _ _ _ _ AB1 CA CB CA1 CB1) as [-> ->]. clear AB1 CA1 CB1.
  rewrite G in G1. injection G1 as <-.
  destruct (filed_reads mv _ q2 dt RF2 PF2 H2) as (a2 & b2 & g2 & AB2 & CA2 & CB2 & G2 & GS2 & GN2). cbn [kept_settled set_screens sp_screens] in AB2.
  destruct (split_unique _ _ _ _ AB2) as [-> ->]; auto.
  { apply Forall_map. eapply Forall_impl; [|exact CA]. intros s C. rewrite settle_recode. now apply recode_has_code. }
  { intros y r E. destruct b as [|x l]; [discriminate|]. injection E as <- _. intros C. apply recode_has_code in C. now apply (CB x l). }
  exists g2. split; [exact G2|]. intros k.
  assert (NM : map sc_java_name (map settle_screen a ++ map blank b) = map sc_java_name (a ++ b)).
  { rewrite !map_app, !map_map. reflexivity. }
  destruct (in_dec (list_eq_dec N.eq_dec) k (map sc_java_name (a ++ b))) as [I|I].
  - apply in_map_iff in I as (s & <- & I). destruct PP as (PS & _). rewrite AB in PS. rewrite Forall_forall in PS. specialize (PS s I).
    destruct (GS1 s I) as (lg & L & _ & X1 & X2). apply in_app_or in I as [I|I].
    + destruct (GS2 (settle_screen s)) as (lg2 & L2 & _ & Y1 & _); [apply in_or_app; left; now apply in_map|]. specialize (X1 I). specialize (Y1 (in_map _ _ _ I)).
      change (sc_java_name (settle_screen s)) with (sc_java_name s) in Y1. right. exists lg2, lg. split; [exact Y1|]. split; [exact X1|].
      destruct (logic_name _ _ L) as [N1 _]. destruct (logic_name _ _ L2) as [N2 _]. split; [rewrite N1, N2; reflexivity|]. intros. symmetry. apply (settled_reads s); auto. unfold all_given in GA. rewrite Forall_forall in GA. now apply GA.
    + destruct (GS2 (blank s)) as (lg2 & L2 & _ & _ & Y2); [apply in_or_app; right; now apply in_map|]. specialize (X2 I). specialize (Y2 (in_map _ _ _ I)).
      change (sc_java_name (blank s)) with (sc_java_name s) in Y2. left. rewrite X2, Y2. f_equal. symmetry. now apply (blank_cut s).
  - left. rewrite (proj1 (GN1 k I)). rewrite <- NM in I. now rewrite (proj1 (GN2 k I)).
Qed.
Lemma same_files_refl f : same_files f f.
Proof. split; [reflexivity|]. split; [reflexivity|]. split; reflexivity. Qed.
Lemma without_code_blank_screen s : without_code (blank s) = without_code s.
Proof.
  unfold without_code, blank, recode. cbn [sc_layout_name sc_java_name sc_layout sc_variables sc_list_variables sc_more_blocks sc_components sc_events sc_fab sc_fullscreen sc_toolbar sc_drawer sc_fab_enabled sc_orientation sc_theme sc_keyboard].
  f_equal; [rewrite map_map; reflexivity|]. induction (sc_events s) as [|e l IH]; [reflexivity|]. cbn [map filter ae_name]. destruct (list_eq_dec N.eq_dec (ae_name e) _); cbn [map ae_name ae_type]; now rewrite IH.
Qed.
Lemma settle_without_code s : settle_screen (without_code s) = without_code s.
Proof.
  unfold settle_screen, without_code. cbn [sc_layout_name sc_java_name sc_layout sc_variables sc_list_variables sc_more_blocks sc_components sc_events sc_fab sc_fullscreen sc_toolbar sc_drawer sc_fab_enabled sc_orientation sc_theme sc_keyboard].
  rewrite !map_map. reflexivity.
Qed.
Lemma kept_remains p a b t : sp_screens p = a ++ b -> Forall has_code a -> (forall y r, b = y :: r -> ~ has_code y) ->
  remains (created_at t (kept_settled a b p)) = settle (remains (created_at t p)).
Proof.
  intros AB CA CB. assert (AL : all_layouts (created_at t (kept_settled a b p)) = all_layouts (created_at t p)).
  { unfold all_layouts. cbn [created_at kept_settled set_screens sp_screens sp_custom_views]. rewrite AB, !map_app, !map_map. reflexivity. }
  assert (S : sp_screens (remains (created_at t (kept_settled a b p))) = sp_screens (settle (remains (created_at t p)))).
  { unfold settle. cbn [set_screens sp_screens]. rewrite !remains_screens. unfold button_kept, no_views. rewrite AL. fold (no_views (created_at t p)). cbn [created_at kept_settled set_screens sp_screens]. rewrite AB.
    rewrite !code_kept_split; auto.
    - rewrite !map_app, !map_map. f_equal; [apply map_ext; intros s; destruct (no_views _); reflexivity|]. apply map_ext. intros s. rewrite without_code_blank_screen.
      destruct (no_views _); [|symmetry; apply settle_without_code]. change (settle_screen (without_button (without_code s))) with (without_button (settle_screen (without_code s))). now rewrite settle_without_code.
    - apply Forall_map. eapply Forall_impl; [|exact CA]. intros s C. rewrite settle_recode. now apply recode_has_code.
    - intros y r E. destruct b as [|x l]; [discriminate|]. injection E as <- _. intros C. apply recode_has_code in C. now apply (CB x l). }
  assert (X : forall u w : sw_project, sp_custom_icon u = sp_custom_icon w -> sp_metadata u = sp_metadata w -> sp_colors u = sp_colors w -> sp_screens u = sp_screens w ->
              sp_custom_views u = sp_custom_views w -> sp_libraries u = sp_libraries w -> sp_resources u = sp_resources w -> sp_automatic u = sp_automatic w -> u = w).
  { intros [] []. cbn. intros. congruence. }
  apply X; try reflexivity; [exact S|]. cbn [remains settle created_at kept_settled set_screens sp_custom_views sp_screens]. rewrite AB. destruct a as [|s a]; [destruct b; reflexivity|reflexivity].
Qed.
(** the files of a project and those of the settled one are read alike *)
Lemma kept_transfer mv ex p q dt r a b : plain_project p -> ready_resources (sp_resources p) -> project_fits p dt -> sp_screens p = a ++ b -> Forall has_code a -> (forall y r, b = y :: r -> ~ has_code y) -> all_given a ->
  project_into p = Ok q -> into_raw q r ->
  ready_project (kept_settled a b p) /\ project_fits (kept_settled a b p) dt /\ exists r2, project_into_raw (kept_settled a b p) r2 /\
  match parse_from mv ex r2, parse_from mv ex r with Ok v2, Ok v => alike v2 v | Err e2, Err e => e = e2 | Panic, Panic => True | _, _ => False end.
Proof.
  intros PP RR PF AB CA CB GA H W. pose proof (kept_well p a b PP AB GA) as KW. pose proof (recoded_ready p _ PP KW) as RP2. pose proof (recoded_fits p _ dt KW PF) as PF2.
  fold (kept_settled a b p) in RP2, PF2. split; [exact RP2|]. split; [exact PF2|].
  destruct (ready_into (kept_settled a b p) RP2 RR) as (q2 & H2). destruct (into_recoded p _ q q2 (forall2_impl _ _ _ _ well_recoded_some KW) H H2) as (E1 & E2 & E3 & E4 & E5 & E6).
  pose proof (raw_swap q q2 r E1 E2 E3 E4 E5 E6 W) as W2. set (r2 := raw_with_logic (logic_reconstruct (pp_logic q2)) r) in *. exists r2. split; [exists q2; auto|].
  destruct (filed_reads mv p q dt (plain_filed p PP) PF H) as (_ & _ & g & _ & _ & _ & G & _).
  destruct (logic_swapped mv p q q2 dt a b g PP PF AB CA CB GA H H2 G) as (g2 & G2 & RA). destruct (raw_logic q r W) as [_ RL]. rewrite <- RL in G.
  rewrite (parse_swap mv ex r _ g g2 G G2). fold r2. destruct (parse_from mv ex r2) as [v2|e|] eqn:K; cbn [rmap]; auto.
  pose proof (parse_swapped mv ex r _ v2 g2 G2 K) as EL. unfold alike. cbn [parsed_with_logic pp_project pp_file pp_library pp_resource pp_view pp_logic pp_resource_files]. rewrite EL.
  repeat (split; [reflexivity|]). split; [exact RA|]. unfold files_alike. destruct (pp_resource_files v2); [|exact I]. apply same_files_refl.
Qed.
(** the same without code, whatever the code is *)
Lemma blank_transfer mv ex p q dt r : plain_project p -> ready_resources (sp_resources p) -> project_fits p dt -> project_into p = Ok q -> into_raw q r ->
  let p2 := set_screens (map blank (sp_screens p)) p in
  ready_project p2 /\ project_fits p2 dt /\ exists r2, project_into_raw p2 r2 /\
  match parse_from mv ex r2, parse_from mv ex r with Ok v2, Ok v => True | Err e2, Err e => e = e2 | Panic, Panic => True | _, _ => False end.
Proof.
  intros PP RR PF H W p2. pose proof (all_blank p) as KW. pose proof (recoded_ready p _ PP KW) as RP2. pose proof (recoded_fits p _ dt KW PF) as PF2. fold p2 in RP2, PF2.
  split; [exact RP2|]. split; [exact PF2|].
  destruct (ready_into p2 RP2 RR) as (q2 & H2). destruct (into_recoded p _ q q2 (forall2_impl _ _ _ _ well_recoded_some KW) H H2) as (E1 & E2 & E3 & E4 & E5 & E6).
  pose proof (raw_swap q q2 r E1 E2 E3 E4 E5 E6 W) as W2. set (r2 := raw_with_logic (logic_reconstruct (pp_logic q2)) r) in *. exists r2. split; [exists q2; auto|].
  destruct (filed_reads mv p q dt (plain_filed p PP) PF H) as (_ & _ & g & _ & _ & _ & G & _). destruct (filed_reads mv p2 q2 dt (ready_filed _ RP2) PF2 H2) as (_ & _ & g2 & _ & _ & _ & G2 & _).
  destruct (raw_logic q r W) as [_ RL]. rewrite <- RL in G. rewrite (parse_swap mv ex r _ g g2 G G2). fold r2. destruct (parse_from mv ex r2); cbn [rmap]; auto.
Qed.
(** what has been read was given *)
Lemma try_given rnd v p' p a : plain_project p -> project_try_from rnd v = Ok p' -> f_activities (pp_file v) = map activity_of (sp_screens p) -> (forall s, In s a -> In s (sp_screens p)) ->
  (forall s, In s a -> exists lg, screen_logic_of s = Ok lg /\ sget (sc_java_name s) (pp_logic v) = Some lg) -> all_given a.
Proof.
  intros (PS & _ & _ & N2) TF EA IA G. apply Forall_forall. intros t It. destruct (G t It) as (lg & L & S). specialize (IA t It). pose proof IA as IA0. apply in_split in IA0 as (b & c & AB).
  rewrite Forall_forall in PS. assert (EAct : f_activities (pp_file v) = map activity_of b ++ activity_of t :: map activity_of c) by (rewrite EA, AB, map_app; reflexivity).
  destruct (C66_screen _ _ _ _ _ _ TF EAct) as (ve & le & fab & s' & _ & (_ & (o & U & EO) & _) & R). destruct (PS t IA) as (J & _).
  cbn [fi_filename activity_of] in U. rewrite <- J in U. destruct U as [[I _]|[_ ->]].
  - exfalso. rewrite AB, map_app in N2. cbn [map] in N2. apply NoDup_remove_2 in N2. apply N2, in_or_app. left.
    replace (map sc_java_name b) with (map view_name_to_logic (map fi_filename (map activity_of b))); [exact I|].
    rewrite !map_map. apply map_ext_in. intros z Iz. destruct (PS z) as (Jz & _); [rewrite AB; apply in_or_app; now left|]. now rewrite Jz.
  - rewrite S in EO. subst le. eapply read_given; eauto.
Qed.
Lemma loaded_given mv ex rnd p q dt r v p' : plain_project p -> project_fits p dt -> project_into p = Ok q -> into_raw q r -> parse_from mv ex r = Ok v -> project_try_from rnd v = Ok p' ->
  all_given (code_kept (sp_screens p)).
Proof.
  intros PP PF H W K TF. destruct (filed_reads mv p q dt (plain_filed p PP) PF H) as (a & b & g & AB & CA & CB & G & GS & _). rewrite AB, (all_given_split a b CA CB).
  destruct (raw_logic q r W) as [RFi RL]. apply parse_from_ok in K as (_ & K2 & _ & _ & _ & K6 & _). rewrite RL, G in K6. injection K6 as ->. rewrite RFi in K2.
  pose proof H as H0. apply into_inv in H0 as (? & ? & ? & ? & _ & _ & _ & _ & _ & _ & _ & EA & _).
  destruct (sp_screens p) as [|s0 l0] eqn:E0; [destruct a; [constructor|discriminate]|]. rewrite P_Files.C16_roundtrip_partial in K2 by (left; rewrite EA; discriminate). injection K2 as K2. rewrite K2 in EA.
  rewrite <- E0 in EA, AB. eapply (try_given rnd v p' p); eauto.
  - intros s I. rewrite AB. apply in_or_app. now left.
  - intros s I. destruct (GS s) as (lg & L & _ & X & _); [apply in_or_app; now left|]. eauto.
Qed.
Lemma loaded_safe mv ex rnd p q dt r v : plain_project p -> project_fits p dt -> project_into p = Ok q -> into_raw q r -> parse_from mv ex r = Ok v -> project_try_from rnd v <> Panic.
Proof.
  intros PP PF H W K. destruct (filed_reads mv p q dt (plain_filed p PP) PF H) as (a & b & g & AB & CA & CB & G & GS & GN).
  destruct (raw_logic q r W) as [_ RL]. apply parse_from_ok in K as (_ & _ & _ & _ & _ & K6 & _). rewrite RL, G in K6. injection K6 as ->. destruct PP as (PS & _). rewrite AB in PS. rewrite Forall_forall in PS.
  apply project_safe. intros k le E. destruct (in_dec (list_eq_dec N.eq_dec) k (map sc_java_name (a ++ b))) as [I|I]; [|now rewrite (proj1 (GN k I)) in E].
  apply in_map_iff in I as (s & <- & I). destruct (GS s I) as (lg & L & _ & X1 & X2). destruct (plain_logic_safe s lg (PS s I) L) as [S1 S2]. apply in_app_or in I as [I|I].
  - rewrite (X1 I) in E. injection E as <-. exact S1.
  - rewrite (X2 I) in E. injection E as <-. exact S2.
Qed.
(** in memory *)
Lemma logic_memory p q : filed_project p -> project_into p = Ok q ->
  (forall s, In s (sp_screens p) -> exists lg, screen_logic_of s = Ok lg /\ sget (sc_java_name s) (pp_logic q) = Some lg) /\
  (forall k, ~ In k (map sc_java_name (sp_screens p)) -> sget k (pp_logic q) = None).
Proof.
  intros (_ & N1 & N2) H. destruct (into_exact p q H N1 N2) as (ls & F & EL & _). pose proof (combine_names _ _ F) as KN. split.
  - intros s I. assert (exists lg, screen_logic_of s = Ok lg) as (lg & L).
    { clear - F I. induction F as [|x y l ls X F IH]; [destruct I|]. destruct I as [<-|I]; eauto. }
    exists lg. split; [exact L|]. rewrite EL. apply Str.sget_in; [now rewrite KN|]. now apply in_combine_logic.
  - intros k I. rewrite EL. apply sget_notin. now rewrite KN.
Qed.
Lemma memory_transfer p q : plain_project p -> ready_resources (sp_resources p) -> all_given (sp_screens p) -> project_into p = Ok q ->
  ready_project (settle p) /\ exists q2, project_into (settle p) = Ok q2 /\ alike q2 q.
Proof.
  intros PP RR GA H. assert (KW : Forall2 well_recoded (sp_screens p) (map settle_screen (sp_screens p))).
  { pose proof (kept_well p (sp_screens p) [] PP) as K. cbn [map] in K. rewrite !app_nil_r in K. auto. }
  pose proof (recoded_ready p _ PP KW) as RP2. fold (settle p) in RP2. split; [exact RP2|].
  destruct (ready_into (settle p) RP2 RR) as (q2 & H2). exists q2. split; [exact H2|]. destruct (into_recoded p _ q q2 (forall2_impl _ _ _ _ well_recoded_some KW) H H2) as (E1 & E2 & E3 & E4 & E5 & E6).
  unfold alike. rewrite E1, E2, E3, E4, E5, E6. repeat (split; [reflexivity|]). split; [|unfold files_alike; destruct (pp_resource_files q); [apply same_files_refl|exact I]].
  destruct (logic_memory p q (plain_filed p PP) H) as [M N]. destruct (logic_memory _ q2 (ready_filed _ RP2) H2) as [M2 N2]. intros k. cbn [settle set_screens sp_screens] in M2, N2.
  assert (NM : map sc_java_name (map settle_screen (sp_screens p)) = map sc_java_name (sp_screens p)) by (rewrite map_map; reflexivity). rewrite NM in N2.
  destruct (in_dec (list_eq_dec N.eq_dec) k (map sc_java_name (sp_screens p))) as [I|I]; [|left; now rewrite (N k I), (N2 k I)].
  apply in_map_iff in I as (s & <- & I). destruct (M s I) as (lg & L & S). destruct (M2 (settle_screen s) (in_map _ _ _ I)) as (lg2 & L2 & S2). change (sc_java_name (settle_screen s)) with (sc_java_name s) in S2.
  right. exists lg2, lg. split; [exact S2|]. split; [exact S|]. destruct (logic_name _ _ L) as [X1 _]. destruct (logic_name _ _ L2) as [X2 _]. split; [rewrite X1, X2; reflexivity|].
  destruct PP as (PS & _). unfold all_given in GA. rewrite Forall_forall in PS, GA. intros. symmetry. apply (settled_reads s); auto.
Qed.
Lemma memory_given rnd p q p' : plain_project p -> project_into p = Ok q -> project_try_from rnd q = Ok p' -> all_given (sp_screens p).
Proof.
  intros PP H TF. destruct (logic_memory p q (plain_filed p PP) H) as [M _]. apply into_inv in H as (? & ? & ? & ? & _ & _ & _ & _ & _ & _ & _ & EA & _). eapply try_given; eauto.
Qed.
Lemma memory_safe rnd p q : plain_project p -> project_into p = Ok q -> project_try_from rnd q <> Panic.
Proof.
  intros PP H. destruct (logic_memory p q (plain_filed p PP) H) as [M N]. apply project_safe. intros k le E. destruct PP as (PS & _). rewrite Forall_forall in PS.
  destruct (in_dec (list_eq_dec N.eq_dec) k (map sc_java_name (sp_screens p))) as [I|I]; [|now rewrite (N k I) in E].
  apply in_map_iff in I as (s & <- & I). destruct (M s I) as (lg & L & S). rewrite S in E. injection E as <-. exact (proj1 (plain_logic_safe s lg (PS s I) L)).
Qed.
