(** Proofs about [M_Project.v]. *)
From Verif Require Import Base Str Dec Flt Json JsonProofs Recs RecsProofs M_Color ColorProofs M_Date DateProofs M_Project.

(** ** byte slices of ASCII text *)
Definition ascii_str (s : str) : bool := forallb (fun c => c <? 128) s.
Lemma bdrop_ascii n s : ascii_str s = true -> bdrop n s = if (n <=? length s)%nat then Some (skipn n s) else None.
Proof.
  revert s; induction n as [|n IH]; intros s H; [now destruct s|]. destruct s as [|c s]; [reflexivity|].
  cbn [ascii_str forallb] in H. apply andb_prop in H as [Hc H]. cbn [bdrop skipn length].
  unfold u8len. rewrite Hc. cbn [Nat.leb]. rewrite Nat.sub_succ, Nat.sub_0_r. now apply IH.
Qed.
Lemma btake_ascii n s : ascii_str s = true -> btake n s = if (n <=? length s)%nat then Some (firstn n s) else None.
Proof.
  revert s; induction n as [|n IH]; intros s H; [now destruct s|]. destruct s as [|c s]; [reflexivity|].
  cbn [ascii_str forallb] in H. apply andb_prop in H as [Hc H]. cbn [btake firstn length].
  unfold u8len. rewrite Hc. cbn [Nat.leb]. rewrite Nat.sub_succ, Nat.sub_0_r. rewrite IH by auto. now destruct (n <=? length s)%nat.
Qed.
Lemma ascii_skipn n s : ascii_str s = true -> ascii_str (skipn n s) = true.
Proof.
  intros H. unfold ascii_str in *. rewrite forallb_forall in *. intros x Hx. apply H. rewrite <- (firstn_skipn n s).
  apply in_or_app. now right.
Qed.
Lemma bslice_ascii a b s : ascii_str s = true -> (a <= b)%nat ->
  bslice a b s = if (b <=? length s)%nat then Some (firstn (b - a) (skipn a s)) else None.
Proof.
  intros H L. unfold bslice. replace (a <=? b)%nat with true by (symmetry; now apply Nat.leb_le).
  rewrite bdrop_ascii by auto. destruct (Nat.leb_spec a (length s)); cbn [obind].
  - rewrite btake_ascii by (now apply ascii_skipn). rewrite skipn_length.
    destruct (Nat.leb_spec (b - a) (length s - a)), (Nat.leb_spec b (length s)); auto; lia.
  - destruct (Nat.leb_spec b (length s)); auto; lia.
Qed.
(** ** decimal lengths *)
Definition len_ok (lo hi : N) (len : nat) (n : N) : bool :=
  if (lo <=? n) && (n <? hi) then (length (dec_of_N n) =? len)%nat else true.
Lemma len_sweep lo hi len n : sweep 15 0 (Z.of_N hi) (fun z => len_ok lo hi len (Z.to_N z)) = true -> lo <= n < hi -> length (dec_of_N n) = len.
Proof.
  intros G H. pose proof (sweep_ok _ _ _ _ G (Z.of_N n) ltac:(lia)) as E. cbv beta in E. rewrite N2Z.id in E. unfold len_ok in E.
  destruct H as [H1 H2]. apply N.leb_le in H1. apply N.ltb_lt in H2. rewrite H1, H2 in E. cbn [andb] in E. now apply Nat.eqb_eq.
Qed.
Lemma len1 n : n < 10 -> length (dec_of_N n) = 1%nat.
Proof. intros H. apply (len_sweep 0 10); [vm_cast_no_check (eq_refl true)|lia]. Qed.
Lemma len2 n : 10 <= n < 100 -> length (dec_of_N n) = 2%nat.
Proof. intros H. apply (len_sweep 10 100); [vm_cast_no_check (eq_refl true)|lia]. Qed.
Lemma len4 n : 1000 <= n < 10000 -> length (dec_of_N n) = 4%nat.
Proof. intros H. apply (len_sweep 1000 10000); [vm_cast_no_check (eq_refl true)|lia]. Qed.
Lemma dec_ascii n : ascii_str (dec_of_N n) = true.
Proof.
  pose proof (dec_of_N_digits n) as H. unfold ascii_str. rewrite forallb_forall in *. intros x Hx. apply H in Hx.
  apply is_digit_range in Hx. apply N.ltb_lt. lia.
Qed.
Lemma ascii_app a b : ascii_str (a ++ b) = ascii_str a && ascii_str b.
Proof. apply forallb_app. Qed.
Lemma dec_Z_nonneg z : (0 <= z)%Z -> dec_of_Z z = dec_of_N (Z.to_N z).
Proof. intros H. destruct z; auto; lia. Qed.
Lemma digits_nat_text s : s <> [] -> forallb is_digit s = true -> exists v, nat_text 10 s = Some v /\ v < 10 ^ N.of_nat (length s).
Proof.
  intros Hn H. unfold nat_text. destruct s as [|c s]; [congruence|]. clear Hn.
  assert (K : forall s acc, forallb is_digit s = true -> exists v, digits_val 10 s acc = Some v /\ v < (acc + 1) * 10 ^ N.of_nat (length s)).
  { clear. induction s as [|c s IH]; intros acc H.
    - exists acc. cbn. split; auto. lia.
    - cbn [forallb] in H. apply andb_prop in H as [Hc H]. apply is_digit_range in Hc. cbn [digits_val].
      replace (to_digit 10 c) with (Some (c - 48)) by (symmetry; replace c with (48 + (c - 48)) at 1 by lia; apply to_digit_10; lia).
      destruct (IH (acc * 10 + (c - 48)) H) as (v & -> & L). exists v. split; auto.
      cbn [length]. rewrite Nat2N.inj_succ, N.pow_succ_r'. nia. }
  destruct (K (c :: s) 0 H) as (v & E & L). exists v. rewrite N.add_0_l, N.mul_1_l in L. now split.
Qed.
Lemma digits_parse_u32 s : s <> [] -> (length s <= 4)%nat -> forallb is_digit s = true -> exists v, parse_u32 s = Some v.
Proof.
  intros Hn L H. destruct (digits_nat_text s Hn H) as (v & E & B). exists v.
  assert (B2 : 10 ^ N.of_nat (length s) <= 10 ^ 4) by (apply N.pow_le_mono_r; lia). change (10 ^ 4) with 10000 in B2.
  unfold parse_u32. rewrite parse_uint_nosign.
  - rewrite E. replace (v <=? U32MAX) with true; auto. symmetry. apply N.leb_le. unfold U32MAX. lia.
  - destruct s as [|c s]; [congruence|]. cbn [forallb] in H. apply andb_prop in H as [Hc _]. apply is_digit_range in Hc. cbn. lia.
Qed.
Lemma forallb_firstn_skipn {A} (P : A -> bool) n m l : forallb P l = true -> forallb P (firstn n (skipn m l)) = true.
Proof.
  intros H. rewrite forallb_forall in *. intros x Hx. apply H. rewrite <- (firstn_skipn m l). apply in_or_app. right.
  rewrite <- (firstn_skipn n (skipn m l)). apply in_or_app. now left.
Qed.
Lemma pair2 (l : str) : length l = 2%nat -> exists a b, l = [a; b].
Proof. destruct l as [|a [|b [|]]]; try discriminate. eauto. Qed.
Lemma quad4 (l : str) : length l = 4%nat -> exists a b c d, l = [a; b; c; d].
Proof. destruct l as [|a [|b [|c [|d [|]]]]]; try discriminate. eauto 10. Qed.

(** all fields two digits wide: the text is read back *)
Definition wide (dt : datetime) : bool :=
  (10 <=? dt_month dt)%Z && (10 <=? dt_day dt)%Z && (10 <=? dt_hour dt)%Z && (10 <=? dt_minute dt)%Z && (10 <=? dt_second dt)%Z.
Lemma dt_bounds dt : valid_datetime dt = true ->
  (1 <= dt_month dt <= 12 /\ 1 <= dt_day dt <= 31 /\ 0 <= dt_hour dt < 24 /\ 0 <= dt_minute dt < 60 /\ 0 <= dt_second dt < 60)%Z.
Proof.
  unfold valid_datetime, valid_ymd. rewrite !andb_true_iff, !Z.leb_le, !Z.ltb_lt. intros H.
  assert (days_in_month (dt_year dt) (dt_month dt) <= 31)%Z.
  { unfold days_in_month. destruct (dt_month dt =? 2)%Z, (leap (dt_year dt)), ((dt_month dt =? 4) || (dt_month dt =? 6) || (dt_month dt =? 9) || (dt_month dt =? 11))%Z; lia. }
  lia.
Qed.
Lemma date_de_wide dt : valid_datetime dt = true -> (1000 <= dt_year dt <= 9999)%Z -> wide dt = true ->
  date_de (date_text dt) = Ok (u64_of_i64 (timestamp_of dt)).
Proof.
  intros V Y W. pose proof (dt_bounds dt V) as B. unfold wide in W. rewrite !andb_true_iff, !Z.leb_le in W.
  unfold date_text. rewrite !dec_Z_nonneg by lia.
  set (y := Z.to_N (dt_year dt)). set (m := Z.to_N (dt_month dt)). set (d := Z.to_N (dt_day dt)). set (h := Z.to_N (dt_hour dt)).
  set (mi := Z.to_N (dt_minute dt)). set (s := Z.to_N (dt_second dt)).
  assert (A : ascii_str (dec_of_N y ++ dec_of_N m ++ dec_of_N d ++ dec_of_N h ++ dec_of_N mi ++ dec_of_N s) = true)
    by (rewrite !ascii_app, !dec_ascii; reflexivity).
  assert (Ly : length (dec_of_N y) = 4%nat) by (apply len4; unfold y; lia).
  assert (Lm : length (dec_of_N m) = 2%nat) by (apply len2; unfold m; lia).
  assert (Ld : length (dec_of_N d) = 2%nat) by (apply len2; unfold d; lia).
  assert (Lh : length (dec_of_N h) = 2%nat) by (apply len2; unfold h; lia).
  assert (Lmi : length (dec_of_N mi) = 2%nat) by (apply len2; unfold mi; lia).
  assert (Ls : length (dec_of_N s) = 2%nat) by (apply len2; unfold s; lia).
  assert (Py : parse_i32 (dec_of_N y) = Some (dt_year dt)).
  { replace (dec_of_N y) with (dec_of_Z (dt_year dt)) by (apply dec_Z_nonneg; lia). apply parse_int_dec. unfold I32MAX. lia. }
  assert (Pu : forall n, n < 100 -> parse_u32 (dec_of_N n) = Some n) by (intros n Hn; apply parse_u32_dec; unfold U32MAX; lia).
  pose proof (Pu m ltac:(unfold m; lia)) as Pm. pose proof (Pu d ltac:(unfold d; lia)) as Pd. pose proof (Pu h ltac:(unfold h; lia)) as Ph.
  pose proof (Pu mi ltac:(unfold mi; lia)) as Pmi. pose proof (Pu s ltac:(unfold s; lia)) as Ps. clear Pu.
  unfold date_de. rewrite !bslice_ascii by (auto; lia). rewrite !app_length, Ly, Lm, Ld, Lh, Lmi, Ls. cbn [Nat.leb Nat.add Nat.sub].
  destruct (quad4 _ Ly) as (y1 & y2 & y3 & y4 & Ey). destruct (pair2 _ Lm) as (m1 & m2 & Em). destruct (pair2 _ Ld) as (d1 & d2 & Ed).
  destruct (pair2 _ Lh) as (h1 & h2 & Eh). destruct (pair2 _ Lmi) as (i1 & i2 & Ei). destruct (pair2 _ Ls) as (s1 & s2 & Es).
  rewrite Ey, Em, Ed, Eh, Ei, Es in *. cbn [app firstn skipn unwrap bind].
  rewrite Py. cbn [ok_or bind]. rewrite Pm. cbn [ok_or bind]. rewrite Pd. cbn [ok_or bind]. rewrite Ph. cbn [ok_or bind].
  rewrite Pmi. cbn [ok_or bind]. rewrite Ps. cbn [ok_or bind].
  replace {| dt_year := dt_year dt; dt_month := Z.of_N m; dt_day := Z.of_N d; dt_hour := Z.of_N h; dt_minute := Z.of_N mi; dt_second := Z.of_N s |} with dt.
  - now rewrite V.
  - destruct dt; unfold m, d, h, mi, s; cbn in *. f_equal; lia.
Qed.
(** otherwise the text is too short *)
Lemma date_de_short s : forallb is_digit s = true -> (4 <= length s < 14)%nat -> date_de s = Panic.
Proof.
  intros D L. assert (A : ascii_str s = true).
  { unfold ascii_str. rewrite forallb_forall in *. intros x Hx. apply D in Hx. apply is_digit_range in Hx. apply N.ltb_lt. lia. }
  unfold date_de. rewrite !bslice_ascii by (auto; lia).
  assert (P : forall n m, (0 < n <= 4)%nat -> (n + m <= length s)%nat -> exists v, parse_u32 (firstn n (skipn m s)) = Some v).
  { intros n m Hn Hm. apply digits_parse_u32.
    - intros E. apply (f_equal (@length N)) in E. rewrite firstn_length, skipn_length in E. cbn in E. lia.
    - rewrite firstn_length. lia.
    - now apply forallb_firstn_skipn. }
  assert (P0 : exists v, parse_i32 (firstn 4 (skipn 0 s)) = Some v).
  { set (q := firstn 4 (skipn 0 s)).
    assert (Lq : length q = 4%nat) by (unfold q; rewrite firstn_length, skipn_length; lia).
    assert (Dq : forallb is_digit q = true) by (now apply forallb_firstn_skipn).
    destruct (digits_nat_text q) as (v & E & B); [intros E; now rewrite E in Lq|auto|].
    rewrite Lq in B. change (10 ^ N.of_nat 4) with 10000 in B.
    destruct q as [|c q]; [discriminate|]. pose proof Dq as Dq2. cbn [forallb] in Dq2. apply andb_prop in Dq2 as [Hc _]. apply is_digit_range in Hc.
    exists (Z.of_N v). unfold parse_i32. rewrite parse_int_nosign by (cbn; lia). rewrite parse_uint_nosign by (cbn; lia). rewrite E.
    replace (v <=? I32MAX) with true; auto. symmetry. apply N.leb_le. unfold I32MAX. lia. }
  replace (4 <=? length s)%nat with true by (symmetry; apply Nat.leb_le; lia).
  replace (14 <=? length s)%nat with false by (symmetry; apply Nat.leb_gt; lia).
  cbn [Nat.sub unwrap bind]. destruct P0 as [y ->]. cbn [ok_or bind].
  destruct (Nat.leb_spec 6 (length s)) as [L6|L6]; [|reflexivity]. cbn [unwrap bind]. destruct (P 2%nat 4%nat) as [v4 ->]; [lia|lia|]. cbn [ok_or bind].
  destruct (Nat.leb_spec 8 (length s)) as [L8|L8]; [|reflexivity]. cbn [unwrap bind]. destruct (P 2%nat 6%nat) as [v6 ->]; [lia|lia|]. cbn [ok_or bind].
  destruct (Nat.leb_spec 10 (length s)) as [L10|L10]; [|reflexivity]. cbn [unwrap bind]. destruct (P 2%nat 8%nat) as [v8 ->]; [lia|lia|]. cbn [ok_or bind].
  destruct (Nat.leb_spec 12 (length s)) as [L12|L12]; [|reflexivity]. cbn [unwrap bind]. destruct (P 2%nat 10%nat) as [v10 ->]; [lia|lia|]. cbn [ok_or bind].
  reflexivity.
Qed.
Lemma date_de_narrow dt : valid_datetime dt = true -> (1000 <= dt_year dt <= 9999)%Z -> wide dt = false ->
  date_de (date_text dt) = Panic.
Proof.
  intros V Y W. pose proof (dt_bounds dt V) as B. unfold date_text. rewrite !dec_Z_nonneg by lia. apply date_de_short.
  - rewrite !forallb_app, !dec_of_N_digits. reflexivity.
  - rewrite !app_length. rewrite (len4 (Z.to_N (dt_year dt))) by lia.
    assert (K : forall n, n < 100 -> length (dec_of_N n) = 2%nat \/ (length (dec_of_N n) = 1%nat /\ n < 10)).
    { intros n Hn. destruct (N.lt_ge_cases n 10); [right; split; auto; now apply len1|left; apply len2; lia]. }
    pose proof (K (Z.to_N (dt_month dt)) ltac:(lia)) as K1. pose proof (K (Z.to_N (dt_day dt)) ltac:(lia)) as K2.
    pose proof (K (Z.to_N (dt_hour dt)) ltac:(lia)) as K3. pose proof (K (Z.to_N (dt_minute dt)) ltac:(lia)) as K4.
    pose proof (K (Z.to_N (dt_second dt)) ltac:(lia)) as K5.
    assert (Hn : (dt_month dt < 10 \/ dt_day dt < 10 \/ dt_hour dt < 10 \/ dt_minute dt < 10 \/ dt_second dt < 10)%Z).
    { unfold wide in W. rewrite !andb_false_iff, !Z.leb_gt in W. tauto. }
    split; [lia|].
    destruct Hn as [Hn|[Hn|[Hn|[Hn|Hn]]]].
    + rewrite (len1 (Z.to_N (dt_month dt))) by lia. lia.
    + rewrite (len1 (Z.to_N (dt_day dt))) by lia. lia.
    + rewrite (len1 (Z.to_N (dt_hour dt))) by lia. lia.
    + rewrite (len1 (Z.to_N (dt_minute dt))) by lia. lia.
    + rewrite (len1 (Z.to_N (dt_second dt))) by lia. lia.
Qed.
Lemma u64_i64 t : t < 2 ^ 64 -> u64_of_i64 (i64_of_u64 t) = t.
Proof.
  intros H. change (2 ^ 64) with 18446744073709551616 in H. unfold u64_of_i64, i64_of_u64. destruct (N.ltb_spec t 9223372036854775808).
  - rewrite Z.mod_small by lia. lia.
  - replace ((Z.of_N t - 18446744073709551616) mod 18446744073709551616)%Z with (Z.of_N t); [lia|].
    apply (Z.mod_unique _ _ (-1)); lia.
Qed.

(** ** the record *)
Definition project_ok (p : project) : Prop :=
  pj_id p < 65536 /\ pj_version_code p < 65536 /\ pj_sketchware_version p < 256 /\ pj_date_created p < 2 ^ 64 /\
  Forall (fun c => cval c < 4294967296)
    [pal_primary (pj_palette p); pal_primary_dark (pj_palette p); pal_accent (pj_palette p);
     pal_control_normal (pj_palette p); pal_control_highlight (pj_palette p)].
Lemma e_project_wf p date : wf_json (e_project p date) = true.
Proof.
  unfold e_project. rewrite wf_e_obj. cbn [forallb snd]. unfold e_color. rewrite !wf_e_int. reflexivity.
Qed.
Lemma e_color_content c : cval c < 4294967296 -> content_ok CONTENT_DEPTH (e_color c) = true.
Proof.
  intros H. pose proof (d_color_e c H) as D. unfold e_color in *. destruct (e_int (i32_of_u32 (cval c))) eqn:E; cbn [d_color] in D; try discriminate D.
  unfold CONTENT_DEPTH. cbn [content_ok]. destruct (classify n); auto; discriminate.
Qed.
Ltac step := match goal with |- context [pj_step ?st (Some (lit ?k), ?v)] =>
    unfold pj_step at 1; cbv iota;
    repeat match goal with |- context [str_eqb (lit ?a) (lit ?b)] =>
      let r := eval vm_compute in (str_eqb (lit a) (lit b)) in change (str_eqb (lit a) (lit b)) with r; cbv iota end;
    cbn [once ps_id ps_app ps_ws ps_pkg ps_vc ps_vn ps_date ps_icon ps_sv ps_rest pj_start] end.
Lemma d_project_e p date : project_ok p ->
  d_project (e_project p date) =
  let* t := date_de date in
  Ok {| pj_id := pj_id p; pj_app_name := pj_app_name p; pj_workspace_name := pj_workspace_name p;
        pj_package_name := pj_package_name p; pj_version_code := pj_version_code p; pj_version_name := pj_version_name p;
        pj_date_created := t; pj_custom_icon := pj_custom_icon p; pj_palette := pj_palette p;
        pj_sketchware_version := pj_sketchware_version p |}.
Proof.
  intros (H1 & H2 & H3 & H4 & H5). rewrite !Forall_cons_iff in H5. destruct H5 as (C1 & C2 & C3 & C4 & C5 & _).
  assert (U : forall n, n < 65536 -> d_u16_text (e_u16_text n) = Some n).
  { intros n Hn. unfold d_u16_text, e_u16_text. cbn [d_str e_str obind]. apply parse_u16_dec. unfold U16MAX. lia. }
  unfold d_project, e_project, e_obj. cbn [map fst snd pj_fold].
  step. rewrite U by auto. cbn [ok_or bind].
  step. cbn [d_str e_str ok_or bind].
  step. cbn [d_str e_str ok_or bind].
  step. cbn [d_str e_str ok_or bind].
  step. rewrite U by auto. cbn [ok_or bind].
  step. cbn [d_str e_str ok_or bind].
  step. cbn [d_str e_str ok_or bind]. destruct (date_de date) as [t|e|]; [|reflexivity|reflexivity]. cbn [bind].
  step. cbn [d_bool ok_or bind].
  step. rewrite e_color_content by auto. cbn [bind app].
  step. rewrite e_color_content by auto. cbn [bind app].
  step. rewrite e_color_content by auto. cbn [bind app].
  step. rewrite e_color_content by auto. cbn [bind app].
  step. rewrite e_color_content by auto. cbn [bind app].
  step. rewrite d_u8_e by lia. cbn [ok_or bind ps_id ps_app ps_ws ps_pkg ps_vc ps_vn ps_date ps_icon ps_sv ps_rest].
  unfold d_palette.
  match goal with |- context [sf ?ns (JObj ?l)] =>
    change (JObj l) with (e_obj [("color_primary", e_color (pal_primary (pj_palette p))); ("color_primary_dark", e_color (pal_primary_dark (pj_palette p)));
         ("color_accent", e_color (pal_accent (pj_palette p))); ("color_control_normal", e_color (pal_control_normal (pj_palette p)));
         ("color_control_highlight", e_color (pal_control_highlight (pj_palette p)))]%string) end.
  rewrite sf_obj by reflexivity. cbn [obind map assoc String.eqb Ascii.eqb Bool.eqb req].
  rewrite !d_color_e by auto. cbn [obind ok_or bind]. now destruct (pj_palette p).
Qed.
