(** Proofs: which dates come back from their own text, for every year *)
From Verif Require Import Base Spec Str Dec Flt Json JsonProofs LogicMapProofs M_Color M_Date DateProofs M_Project ProjectProofs SpecReading SpecJson SpecNumber NumberTextProofs ShortestProofs SpecRecord SpecDate DateTextProofs.
Local Open Scope Z_scope.

Definition good_year (y : Z) : Prop := 1000 <= y <= 9999 \/ -999 <= y <= -100.
Lemma len3 n : (100 <= n < 1000)%N -> length (dec_of_N n) = 3%nat.
Proof. intros H. apply (len_sweep 100 1000); [vm_cast_no_check (eq_refl true)|lia]. Qed.
Lemma blen_ascii s : ascii_str s = true -> blen s = length s.
Proof.
  induction s as [|c s IH]; [reflexivity|]. unfold ascii_str. cbn [forallb]. rewrite andb_true_iff, N.ltb_lt. intros [C H]. cbn [blen length].
  apply u8len_ascii in C. rewrite C, IH by assumption. reflexivity.
Qed.
Lemma blen_dec n : blen (dec_of_N n) = length (dec_of_N n).
Proof. apply blen_ascii, dec_ascii. Qed.
Lemma blen_decZ_neg z : z < 0 -> blen (dec_of_Z z) = S (length (dec_of_N (Z.to_N (- z)))).
Proof. intros H. destruct z as [|q|q]; try lia. cbn [dec_of_Z blen]. rewrite blen_dec. reflexivity. Qed.
Lemma year_len y : -1000 < y < 10000 -> (blen (dec_of_Z y) <= 4)%nat /\ (blen (dec_of_Z y) = 4%nat <-> good_year y).
Proof.
  intros Y. unfold good_year. destruct (Z.lt_ge_cases y 0) as [L|L].
  - rewrite blen_decZ_neg by assumption. set (n := Z.to_N (- y)). assert (N0 : (n < 1000)%N) by (unfold n; lia).
    destruct (N.lt_ge_cases n 10); [rewrite len1 by assumption; unfold n in *; lia|].
    destruct (N.lt_ge_cases n 100); [rewrite len2 by lia; unfold n in *; lia|]. rewrite len3 by lia. unfold n in *; lia.
  - rewrite dec_Z_nonneg, blen_dec by assumption. set (n := Z.to_N y). assert (N0 : (n < 10000)%N) by (unfold n; lia).
    destruct (N.lt_ge_cases n 10); [rewrite len1 by assumption; unfold n in *; lia|].
    destruct (N.lt_ge_cases n 100); [rewrite len2 by lia; unfold n in *; lia|].
    destruct (N.lt_ge_cases n 1000); [rewrite len3 by lia; unfold n in *; lia|]. rewrite len4 by lia. unfold n in *; lia.
Qed.
Lemma field_len z : 0 <= z < 100 -> (blen (dec_of_Z z) <= 2)%nat /\ (blen (dec_of_Z z) = 2%nat <-> 10 <= z).
Proof.
  intros H. rewrite dec_Z_nonneg, blen_dec by lia. destruct (Z.lt_ge_cases z 10).
  - rewrite len1 by lia. lia.
  - rewrite len2 by lia. lia.
Qed.
Lemma dec_digits_ok n : digits (dec_of_N n).
Proof.
  split; [apply dec_of_N_nonnil|]. pose proof (dec_of_N_digits n) as H. rewrite forallb_forall in H. apply Forall_forall. intros x I. apply H in I. now apply is_digit_range.
Qed.
Lemma dec_unsigned z : 0 <= z -> unsigned (dec_of_Z z) z.
Proof.
  intros H. rewrite dec_Z_nonneg by assumption. exists [], (dec_of_N (Z.to_N z)). split; [reflexivity|]. split; [now left|]. split; [apply dec_digits_ok|].
  rewrite decimal_dec. lia.
Qed.
Lemma dec_signed z : signed (dec_of_Z z) z.
Proof.
  destruct (Z.lt_ge_cases z 0) as [L|L]; [|left; now apply dec_unsigned]. right. destruct z as [|q|q]; try lia. exists (dec_of_N (Npos q)).
  split; [reflexivity|]. split; [apply dec_digits_ok|]. rewrite decimal_dec. reflexivity.
Qed.
Lemma signed_bounds t y : blen t = 4%nat -> signed t y -> -1000 < y < 10000.
Proof.
  intros B [(sg & ds & -> & _ & D & ->)|(ds & -> & D & ->)]; rewrite blen_app in B.
  - pose proof (decimal_small ds D ltac:(lia)). lia.
  - change (blen (lit "-")) with 1%nat in B. destruct D as [_ D]. pose proof (decimal_nonneg ds). pose proof (decimal_lt _ D) as U. pose proof (length_blen ds).
    assert (10 ^ Z.of_nat (length ds) <= 10 ^ 3) by (apply Z.pow_le_mono_r; lia). lia.
Qed.
Lemma second_bounds y m d h mi s t : -10000 < y < 10000 -> second_of [y; m; d; h; mi; s] t -> - 2 ^ 63 <= t < 2 ^ 63.
Proof.
  intros Y (y' & m' & d' & h' & mi' & s' & n & E & D & H1 & H2 & H3 & ->). injection E as <- <- <- <- <- <-. apply day_number_spec in D as [V ->].
  assert (V' : 1 <= m <= 12 /\ 1 <= d <= 31).
  { unfold valid_ymd in V. rewrite !andb_true_iff, !Z.leb_le in V. assert (days_in_month y m <= 31).
    { unfold days_in_month. destruct (m =? 2), (leap y), ((m =? 4) || (m =? 6) || (m =? 9) || (m =? 11)); lia. } lia. }
  assert (B : -10000000 < days_of_ymd y m d < 10000000).
  { unfold days_of_ymd, day_of_cycle. set (y1 := if m <=? 2 then y - 1 else y). assert (-10001 <= y1 < 10000) by (unfold y1; destruct (m <=? 2); lia).
    set (k := if 2 <? m then m - 3 else m + 9). assert (0 <= k <= 21) by (unfold k; destruct (2 <? m) eqn:E; lia).
    pose proof (Z.mod_pos_bound y1 400 ltac:(lia)). clearbody y1 k. set (r := y1 mod 400) in *. clearbody r.
    Z.to_euclidean_division_equations. lia. }
  lia.
Qed.
Lemma mod64 a b : - 2 ^ 63 <= a < 2 ^ 63 -> - 2 ^ 63 <= b < 2 ^ 63 -> a mod 2 ^ 64 = b mod 2 ^ 64 -> a = b.
Proof. intros A B E. pose proof (Z.div_mod a (2 ^ 64) ltac:(lia)). pose proof (Z.div_mod b (2 ^ 64) ltac:(lia)). rewrite E in H. lia. Qed.

Theorem date_back dt : valid_datetime dt = true -> - 2 ^ 63 <= timestamp_of dt < 2 ^ 63 ->
  date_de (date_text dt) = Ok (u64_of_i64 (timestamp_of dt)) <-> wide dt = true /\ good_year (dt_year dt).
Proof.
  intros V T. pose proof (dt_bounds dt V) as B. rewrite date_de_ok.
  assert (EU : Z.of_N (u64_of_i64 (timestamp_of dt)) = timestamp_of dt mod 2 ^ 64).
  { unfold u64_of_i64. change 18446744073709551616 with (2 ^ 64). pose proof (Z.mod_pos_bound (timestamp_of dt) (2 ^ 64) ltac:(lia)). lia. }
  assert (FM := field_len (dt_month dt) ltac:(lia)). assert (FD := field_len (dt_day dt) ltac:(lia)). assert (FH := field_len (dt_hour dt) ltac:(lia)).
  assert (FI := field_len (dt_minute dt) ltac:(lia)). assert (FS := field_len (dt_second dt) ltac:(lia)).
  unfold wide. rewrite !andb_true_iff, !Z.leb_le. split.
  - intros (zs & rest & z & C & S & E). destruct (cut_year _ _ _ C) as (y & m & d & h & mi & s & -> & Y).
    assert (X : exists dt', dt' = {| dt_year := y; dt_month := m; dt_day := d; dt_hour := h; dt_minute := mi; dt_second := s |}) by eauto.
    destruct X as (dt' & Edt).
    assert (V' : valid_datetime dt' = true) by (rewrite Edt; apply valid_second; eauto).
    pose proof (second_value _ _ _ _ _ _ _ S) as Ez. rewrite <- Edt in Ez.
    assert (z = timestamp_of dt). { apply mod64; [eapply second_bounds; eauto|assumption|congruence]. }
    assert (ED : dt = dt').
    { pose proof (datetime_rt dt V) as R. pose proof (datetime_rt dt' V') as R'. rewrite <- Ez in R'. rewrite H in R'. congruence. }
    rewrite <- ED in Edt. clear dt' V' Ez ED.
    assert (F : dt_year dt = y) by (rewrite Edt; reflexivity).
    pose proof (f_equal blen) as G. specialize (G _ _ (eq_refl (date_text dt))).
    apply cut_cons in C as (n0 & R0 & q0 & p0 & d0 & E0 & T0 & B0 & S0 & C). injection E0 as <- <- <-.
    apply cut_cons in C as (n1 & R1 & q1 & p1 & d1 & E1 & T1 & B1 & _ & C). injection E1 as <- <- <-.
    apply cut_cons in C as (n2 & R2 & q2 & p2 & d2 & E2 & T2 & B2 & _ & C). injection E2 as <- <- <-.
    apply cut_cons in C as (n3 & R3 & q3 & p3 & d3 & E3 & T3 & B3 & _ & C). injection E3 as <- <- <-.
    apply cut_cons in C as (n4 & R4 & q4 & p4 & d4 & E4 & T4 & B4 & _ & C). injection E4 as <- <- <-.
    apply cut_cons in C as (n5 & R5 & q5 & p5 & d5 & E5 & T5 & B5 & _ & C). injection E5 as <- <- <-.
    rewrite T0, T1, T2, T3, T4, T5 in G at 1. unfold date_text in G. rewrite !blen_app in G.
    pose proof (signed_bounds _ _ B0 S0) as YB. rewrite <- F in YB. destruct (year_len _ YB) as [L4 L4']. rewrite <- L4'. lia.
  - intros [W Y]. assert (YB : -1000 < dt_year dt < 10000) by (unfold good_year in Y; lia). destruct (year_len _ YB) as [_ L4].
    exists [dt_year dt; dt_month dt; dt_day dt; dt_hour dt; dt_minute dt; dt_second dt], [], (timestamp_of dt). split.
    + unfold date_text, pieces. rewrite <- (app_nil_r (dec_of_Z (dt_second dt))). apply cut_piece; [tauto|apply dec_signed|].
      repeat (apply cut_piece; [tauto|apply dec_unsigned; lia|]). apply cut_none.
    + split; [|assumption]. destruct (proj1 (valid_second (dt_year dt) (dt_month dt) (dt_day dt) (dt_hour dt) (dt_minute dt) (dt_second dt) ltac:(lia))) as (t & S).
      { now destruct dt. }
      pose proof (second_value _ _ _ _ _ _ _ S) as ->. now destruct dt.
Qed.
