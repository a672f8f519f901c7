(** The shortest decimal of an f32, read as an f64 the way serde_json does (one multiplication or
    division by a rounded power of ten) and rounded to f32, is the f32 again. *)
From Verif Require Import Base Dec Flt FltProofs FltCanon FltQ FltGap FltGapData Json.
From Coq Require Import ZifyNat ZifyN ZifyBool QArith Qpower Qfield Qabs Lqa Znumtheory Zpow_facts.
Local Open Scope Q_scope.

(** ** exact values *)
Lemma self_interval f m e : good_format f -> (1 <= m)%N -> low_end f m e < qN m * p2 e < high_end m e.
Proof.
  intros G Hm. unfold low_end, high_end. pose proof (p2_pos (e - 2)). apply qN_le in Hm. change (qN 1) with 1 in Hm.
  destruct (_ && _); rewrite (p2_half e), (p2_pred e); split; nra.
Qed.
Lemma in_interval_comp f m e x y : x == y -> in_interval f m e x -> in_interval f m e y.
Proof. unfold in_interval. intros E. now rewrite E. Qed.
Lemma exact64 neg P B M f : (0 < B)%N -> (0 < M < 2 ^ 53)%N -> (-250 <= f <= 250)%Z -> rat P B == qN M * p2 f ->
  exists m e, round_ratio F64 neg P B = FFin neg m e /\ qN m * p2 e == rat P B.
Proof.
  intros HB HM Hf R. set (k := (52 - N.log2 M)%N).
  assert (L : (N.log2 M < 53)%N) by (apply N.log2_lt_pow2; lia).
  destruct (N.log2_spec M ltac:(lia)) as [L1 L2].
  exists (M * 2 ^ k)%N, (f - Z.of_N k)%Z.
  assert (V : qN (M * 2 ^ k) * p2 (f - Z.of_N k) == rat P B).
  { rewrite R, qN_mul, p2_N. replace f with (Z.of_N k + (f - Z.of_N k))%Z at 2 by lia. rewrite p2_add. ring. }
  assert (U1 : (2 ^ 52 <= M * 2 ^ k)%N).
  { replace (2 ^ 52)%N with (2 ^ N.log2 M * 2 ^ k)%N; [apply N.mul_le_mono_r; auto|]. rewrite <- N.pow_add_r. f_equal. lia. }
  assert (U2 : (M * 2 ^ k < 2 ^ 53)%N).
  { replace (2 ^ 53)%N with (2 ^ N.succ (N.log2 M) * 2 ^ k)%N; [apply N.mul_lt_mono_pos_r; auto; apply pow2_pos|]. rewrite <- N.pow_add_r. f_equal. lia. }
  split; [|exact V]. apply interval_round; auto; [apply good_F64| |].
  - cbn [canonical]. rewrite !andb_true_iff, orb_true_iff, N.ltb_lt, !N.leb_le, !Z.leb_le. cbn [prec emin emax F64].
    change (Z.to_N 53) with 53%N. change (Z.to_N (53 - 1)) with 52%N. change (2 ^ 52)%N with 4503599627370496%N in *. repeat split; try lia. 
  - pose proof (self_interval F64 (M * 2 ^ k) (f - Z.of_N k) good_F64 ltac:(change (2 ^ 52)%N with 4503599627370496%N in *; lia)) as [S1 S2].
    rewrite V in S1, S2. unfold in_interval. split; [split; lra|]. intros _. auto.
Qed.
Lemma rat_1 v : rat v 1 == qN v.
Proof. unfold rat. change (qN 1) with 1. field. Qed.
Lemma f64_of_N_val v : (0 < v < 2 ^ 53)%N -> exists m e, f64_of_N v = FFin false m e /\ qN m * p2 e == qN v.
Proof.
  intros H. destruct (exact64 false v 1 v 0) as (m & e & R & V); auto; try lia.
  { rewrite rat_1. change (p2 0) with 1. ring. }
  exists m, e. rewrite rat_1 in V. auto.
Qed.
Lemma ratio_of_rat m e P B : ratio_of m e = (P, B) -> (0 < B)%N /\ rat P B == qN m * p2 e.
Proof.
  unfold ratio_of. destruct (Z.leb_spec 0 e); intros [= <- <-].
  - split; [lia|]. rewrite rat_1, qN_mul, p2_N. now replace (Z.of_N (Z.to_N e)) with e by lia.
  - split; [apply pow2_pos|]. unfold rat. rewrite p2_N. replace (Z.of_N (Z.to_N (- e))) with (- e)%Z by lia.
    pose proof (p2_opp e). pose proof (p2_pos (- e)). assert (X : p2 e == / p2 (- e)). { apply (Qmult_inj_l _ _ (p2 (- e))); [lra|]. rewrite H0. field. lra. }
    rewrite X. field. lra.
Qed.
Lemma ratio_of_pos m e P B : ratio_of m e = (P, B) -> (0 < m)%N -> (0 < P)%N.
Proof.
  unfold ratio_of. destruct (0 <=? e)%Z; intros [= <- <-] H; auto. apply N.mul_pos_pos; auto. apply pow2_pos.
Qed.

(** ** powers of ten *)
Lemma p10_le a b : (a <= b)%Z -> p10 a <= p10 b.
Proof. intros H. now apply Qpower_le_compat_l. Qed.
Lemma p10_lt_inv a b : p10 a < p10 b -> (a < b)%Z.
Proof. intros H. now apply Qpower_lt_compat_l_inv with (q := 10). Qed.
Definition U53 : Q := 1 # 9007199254740992.
Lemma U53_p2 : p2 (- prec F64) == U53. Proof. reflexivity. Qed.
Definition pow_f64 (a : Z) : flt := round_ratio F64 false (10 ^ Z.to_N a) 1.
Lemma p10_range a : (0 <= a <= 60)%Z -> 1 <= p10 a <= p2 200.
Proof.
  intros H. split; [change 1 with (p10 0); apply p10_le; lia|]. apply Qle_trans with (p10 60); [apply p10_le; lia|]. now vm_compute.
Qed.
Lemma pow_f64_val a : (0 <= a <= 60)%Z -> exists m e, pow_f64 a = FFin false m e /\
  p10 a * (1 - U53) <= qN m * p2 e <= p10 a * (1 + U53).
Proof.
  intros H. pose proof (p10_range a H) as [R1 R2].
  assert (E : rat (10 ^ Z.to_N a) 1 == p10 a) by (rewrite rat_1, p10_N; now replace (Z.of_N (Z.to_N a)) with a by lia).
  destruct (round_error F64 false (10 ^ Z.to_N a) 1) as (m & e & A & V); try (rewrite E); auto.
  - apply good_F64.
  - apply pow10_pos.
  - lia.
  - apply Qle_trans with 1; auto. change 1 with (p2 0). apply p2_le. cbn. lia.
  - apply Qle_lt_trans with (1 := R2). apply Qpower_lt_compat_l; [cbn; lia|reflexivity].
  - exists m, e. split; auto. now rewrite E, U53_p2 in V.
Qed.
Lemma pow_f64_exact a : (0 <= a <= 22)%Z -> exists m e, pow_f64 a = FFin false m e /\ qN m * p2 e == p10 a.
Proof.
  intros H.
  assert (E : rat (10 ^ Z.to_N a) 1 == p10 a) by (rewrite rat_1, p10_N; now replace (Z.of_N (Z.to_N a)) with a by lia).
  destruct (exact64 false (10 ^ Z.to_N a) 1 (5 ^ Z.to_N a) a) as (m & e & A & V); try lia.
  - split; [apply pow5_pos|]. apply N.le_lt_trans with (5 ^ 22)%N; [apply N.pow_le_mono_r; lia|reflexivity].
  - rewrite E. unfold qN, p10, p2. rewrite N2Z.inj_pow, Zpower_Qpower by lia. replace (Z.of_N (Z.to_N a)) with a by lia.
    rewrite <- Qmult_power. reflexivity.
  - exists m, e. rewrite E in V. auto.
Qed.

(** ** the conversion of serde_json *)
Definition to_f64 (D : N) (E : Z) : option flt := f64_from_parts 3 (f64_of_N D) E.
Lemma to_f64_eq D E : (-60 <= E <= 60)%Z -> to_f64 D E =
  if (0 <=? E)%Z then match fmul (f64_of_N D) (pow_f64 E) with FInf _ => None | r => Some r end
  else Some (fdiv (f64_of_N D) (pow_f64 (- E))).
Proof.
  intros H. unfold to_f64, pow_f64. cbn [f64_from_parts]. destruct (Z.leb_spec (Z.abs E) 308); [|lia]. cbv zeta.
  destruct (Z.leb_spec 0 E); [now rewrite Z.abs_eq by lia|now rewrite Z.abs_neq by lia].
Qed.
Definition close (y z : Q) : Prop := inject_Z TWO54 * (y - z) <= 5 * z /\ inject_Z TWO54 * (z - y) <= 5 * z.

Lemma fmul_val m e m' e' : (0 < m)%N -> (0 < m')%N ->
  let v := (qN m * p2 e) * (qN m' * p2 e') in p2 (-1000) <= v < p2 1000 ->
  exists m2 e2, fmul (FFin false m e) (FFin false m' e') = FFin false m2 e2 /\ v * (1 - U53) <= qN m2 * p2 e2 <= v * (1 + U53) /\
  (forall M f, (0 < M < 2 ^ 53)%N -> (-250 <= f <= 250)%Z -> v == qN M * p2 f -> qN m2 * p2 e2 == v).
Proof.
  intros Hm Hm' v [V1 V2]. cbn [fmul]. destruct (ratio_of (m * m') (e + e')) as [P B] eqn:R.
  destruct (ratio_of_rat _ _ _ _ R) as [HB E]. pose proof (ratio_of_pos _ _ _ _ R ltac:(apply N.mul_pos_pos; auto)) as HP.
  assert (Ev : rat P B == v). { rewrite E, qN_mul, p2_add. unfold v. ring. }
  destruct (round_error F64 false P B) as (m2 & e2 & A & W); auto.
  - apply good_F64.
  - rewrite Ev. apply Qle_trans with (2 := V1). apply p2_le. cbn. lia.
  - rewrite Ev. apply Qlt_le_trans with (1 := V2). apply p2_le. cbn. lia.
  - exists m2, e2. split; auto. rewrite Ev, U53_p2 in W. split; auto. intros M f HM Hf Hv.
    destruct (exact64 false P B M f) as (m3 & e3 & A3 & W3); auto; [now rewrite Ev|]. rewrite A in A3. injection A3 as -> ->. now rewrite W3.
Qed.
Lemma fdiv_val m e m' e' : (0 < m)%N -> (0 < m')%N ->
  let v := (qN m * p2 e) / (qN m' * p2 e') in p2 (-1000) <= v < p2 1000 ->
  exists m2 e2, fdiv (FFin false m e) (FFin false m' e') = FFin false m2 e2 /\ v * (1 - U53) <= qN m2 * p2 e2 <= v * (1 + U53) /\
  (forall M f, (0 < M < 2 ^ 53)%N -> (-250 <= f <= 250)%Z -> v == qN M * p2 f -> qN m2 * p2 e2 == v).
Proof.
  intros Hm Hm' v [V1 V2]. cbn [fdiv]. destruct (ratio_of m e) as [P B] eqn:R. destruct (ratio_of m' e') as [P' B'] eqn:R'.
  destruct (ratio_of_rat _ _ _ _ R) as [HB E]. destruct (ratio_of_rat _ _ _ _ R') as [HB' E'].
  pose proof (ratio_of_pos _ _ _ _ R Hm) as HP. pose proof (ratio_of_pos _ _ _ _ R' Hm') as HP'.
  assert (HX : (0 < P * B')%N) by (apply N.mul_pos_pos; auto). assert (HY : (0 < B * P')%N) by (apply N.mul_pos_pos; auto).
  assert (Ev : rat (P * B') (B * P') == v).
  { unfold v. rewrite <- E, <- E'. unfold rat. rewrite !qN_mul. apply qN_pos in HB, HB', HP'. field. lra. }
  destruct (round_error F64 false (P * B') (B * P')) as (m2 & e2 & A & W); auto.
  - apply good_F64.
  - rewrite Ev. apply Qle_trans with (2 := V1). apply p2_le. cbn. lia.
  - rewrite Ev. apply Qlt_le_trans with (1 := V2). apply p2_le. cbn. lia.
  - exists m2, e2. split; auto. rewrite Ev, U53_p2 in W. split; auto. intros M f HM Hf Hv.
    destruct (exact64 false (P * B') (B * P') M f) as (m3 & e3 & A3 & W3); auto; [now rewrite Ev|]. rewrite A in A3. injection A3 as -> ->. now rewrite W3.
Qed.
Lemma nonzero_m m e v : 0 < v -> v <= qN m * p2 e -> (0 < m)%N.
Proof.
  intros H L. destruct (N.eq_dec m 0) as [->|]; [|lia]. exfalso. change (qN 0) with 0 in L. lra.
Qed.
Lemma U53_val : U53 == 1 # 9007199254740992. Proof. reflexivity. Qed.
Lemma to_f64_val D E : (0 < D < 2 ^ 53)%N -> (-60 <= E <= 60)%Z -> let z := qN D * p10 E in
  exists m e, to_f64 D E = Some (FFin false m e) /\ close (qN m * p2 e) z /\
  ((-22 <= E <= 22)%Z -> forall M f, (0 < M < 2 ^ 53)%N -> (-250 <= f <= 250)%Z -> z == qN M * p2 f -> qN m * p2 e == z).
Proof.
  intros HD HE z. rewrite to_f64_eq by auto. destruct (f64_of_N_val D HD) as (md & ed & Fd & Vd). rewrite Fd.
  assert (D1 : 1 <= qN D) by (change 1 with (qN 1); apply qN_le; lia).
  assert (D2 : qN D <= p2 53). { change (p2 53) with (qN (2 ^ 53)). apply qN_le. lia. }
  assert (HA : (0 <= Z.abs E <= 60)%Z) by lia. pose proof (p10_range _ HA) as [R1 R2].
  destruct (pow_f64_val _ HA) as (mp & ep & Fp & Vp).
  assert (Hmd : (0 < md)%N) by (apply (nonzero_m md ed (qN D)); lra).
  assert (Hmp : (0 < mp)%N). { apply (nonzero_m mp ep (p10 (Z.abs E) * (1 - U53))); [|tauto]. unfold U53. nra. }
  assert (Up : p2 53 * (p2 200 * 2) < p2 1000) by now vm_compute.
  assert (Lo : p2 (-1000) * (p2 200 * 2) <= 1) by (vm_compute; discriminate).
  pose proof (p2_pos (-1000)) as q0. pose proof (p2_pos 200) as q1. pose proof (p2_pos 53) as q2.
  set (pw := qN mp * p2 ep) in *. set (T := p10 (Z.abs E)) in *. unfold close. change (inject_Z TWO54) with 18014398509481984.
  assert (Pw1 : (1 # 2) <= pw) by (unfold U53 in Vp; lra). assert (Pw2 : pw <= p2 200 * 2) by (unfold U53 in Vp; lra).
  set (b200 := p2 200) in *. set (b53 := p2 53) in *. set (bl := p2 (-1000)) in *. set (bh := p2 1000) in *.
  destruct (Z.leb_spec 0 E) as [E0|E0].
  - rewrite Z.abs_eq in Fp by lia. rewrite Fp.
    destruct (fmul_val md ed mp ep Hmd Hmp) as (m2 & e2 & F2 & V2 & X2).
    { fold pw. rewrite Vd. fold bl bh. split; [|apply Qle_lt_trans with (2 := Up); nra]. assert (bl <= 1 # 2) by nra. nra. }
    fold pw in V2, X2. rewrite Vd in V2. exists m2, e2. rewrite F2. split; [reflexivity|].
    assert (Zz : z == qN D * T) by (unfold z, T; now rewrite Z.abs_eq by lia). rewrite Zz.
    set (d := qN D) in *. set (y := qN m2 * p2 e2) in *.
    assert (W : d * T * (1 - U53) <= d * pw <= d * T * (1 + U53)) by (split; nra).
    assert (0 < d * T) by nra. split; [unfold U53 in *; split; lra|].
    intros H22 M f HM Hf Hz. destruct (pow_f64_exact E ltac:(lia)) as (mp' & ep' & Fp' & Vp'). rewrite Fp in Fp'. injection Fp' as <- <-.
    assert (PT : pw == T) by (unfold pw, T; now rewrite Vp', Z.abs_eq by lia).
    rewrite (X2 M f HM Hf); [now rewrite Vd, PT|]. rewrite Vd, PT. now rewrite <- Hz, Zz.
  - rewrite Z.abs_neq in Fp by lia. rewrite Fp.
    assert (Ipw : 0 < / pw) by (apply Qinv_lt_0_compat; lra).
    assert (Iw : pw * / pw == 1) by (apply Qmult_inv_r; lra). set (ip := / pw) in *.
    destruct (fdiv_val md ed mp ep Hmd Hmp) as (m2 & e2 & F2 & V2 & X2).
    { fold pw. unfold Qdiv. fold ip. rewrite Vd. fold bl bh. assert (ip <= 2) by nra. assert (bl <= ip) by nra.
      split; [nra|]. apply Qle_lt_trans with (2 := Up). assert (1 <= b200) by lra. nra. }
    fold pw in V2, X2. unfold Qdiv in V2, X2. fold ip in V2, X2. rewrite Vd in V2. exists m2, e2. rewrite F2. split; [reflexivity|].
    assert (Tz : p10 E * T == 1). { unfold T. rewrite <- p10_add. replace (E + Z.abs E)%Z with 0%Z by lia. reflexivity. }
    set (d := qN D) in *. set (y := qN m2 * p2 e2) in *. set (t := p10 E) in *. pose proof (p10_pos E) as t0. fold t in t0.
    assert (W1 : 1 - U53 <= t * pw <= 1 + U53) by (split; nra).
    assert (W2 : t <= ip * (1 + U53)) by nra. assert (W3 : ip * (1 - U53) <= t) by nra.
    assert (W4 : z <= d * ip * (1 + U53)) by (unfold z; nra). assert (W5 : d * ip * (1 - U53) <= z) by (unfold z; nra).
    assert (0 < z) by (unfold z; nra). assert (0 < d * ip) by nra. set (w := d * ip) in *.
    split; [unfold U53 in *; split; lra|].
    intros H22 M f HM Hf Hz. destruct (pow_f64_exact (- E) ltac:(lia)) as (mp' & ep' & Fp' & Vp'). rewrite Fp in Fp'. injection Fp' as <- <-.
    assert (PT : pw == T) by (unfold pw, T; now rewrite Vp', Z.abs_neq by lia).
    assert (It : ip == t) by nra.
    rewrite (X2 M f HM Hf); [now rewrite Vd, It|]. rewrite Vd, It. exact Hz.
Qed.

(** ** the ends of the rounding intervals *)
Lemma low_end_form m e : canonical F32 (FFin false m e) = true -> exists M f,
  low_end F32 m e == inject_Z M * p2 f /\ (0 <= M < MMAX)%Z /\ (-150 <= f <= 103)%Z /\ ((2 ^ 24 <= M)%Z \/ f = (-150)%Z).
Proof.
  intros C. cbn [canonical] in C. rewrite !andb_true_iff, orb_true_iff, N.ltb_lt, !N.leb_le, !Z.leb_le, Z.eqb_eq in C.
  cbn [prec emin emax F32] in C. change (2 ^ Z.to_N 24)%N with 16777216%N in C. change (2 ^ Z.to_N (24 - 1))%N with 8388608%N in C.
  unfold low_end. cbn [prec emin F32]. change (2 ^ Z.to_N (24 - 1))%N with 8388608%N. unfold MMAX. change (2 ^ 25)%Z with 33554432%Z. change (2 ^ 24)%Z with 16777216%Z.
  destruct (N.eqb_spec m 8388608) as [->|Hm]; [destruct (Z.eqb_spec e (-149)) as [->|He]|]; cbn [negb andb].
  - exists 16777215%Z, (-150)%Z. split; [reflexivity|lia].
  - exists 33554431%Z, (e - 2)%Z. split; [reflexivity|lia].
  - exists (2 * Z.of_N m - 1)%Z, (e - 1)%Z. split; [|lia].
    unfold Zminus. rewrite inject_Z_plus, inject_Z_mult. reflexivity.
Qed.
Lemma high_end_form m e : canonical F32 (FFin false m e) = true -> exists M f,
  high_end m e == inject_Z M * p2 f /\ (0 <= M < MMAX)%Z /\ (-150 <= f <= 103)%Z /\ ((2 ^ 24 <= M)%Z \/ f = (-150)%Z).
Proof.
  intros C. cbn [canonical] in C. rewrite !andb_true_iff, orb_true_iff, N.ltb_lt, !N.leb_le, !Z.leb_le, Z.eqb_eq in C.
  cbn [prec emin emax F32] in C. change (2 ^ Z.to_N 24)%N with 16777216%N in C. change (2 ^ Z.to_N (24 - 1))%N with 8388608%N in C.
  unfold high_end, MMAX. change (2 ^ 25)%Z with 33554432%Z. change (2 ^ 24)%Z with 16777216%Z.
  exists (2 * Z.of_N m + 1)%Z, (e - 1)%Z. split; [|lia]. rewrite inject_Z_plus, inject_Z_mult. reflexivity.
Qed.
(** a decimal that is a midpoint has a small exponent *)
Lemma tie_exp D E M f : (0 < D < DMAX)%Z -> (0 <= M < MMAX)%Z -> inject_Z D * p10 E == inject_Z M * p2 f -> (-22 <= E <= 22)%Z.
Proof.
  intros HD HM Eq. pose proof (ten_two E f) as T.
  assert (I : (D * cnum E f = M * cden E f)%Z).
  { apply inject_Z_injective. rewrite !inject_Z_mult. pose proof (p2_pos f).
    apply (Qmult_inj_r _ _ (p2 f)); [lra|]. rewrite <- Qmult_assoc, <- T, Qmult_assoc, Eq. ring. }
  unfold cnum, cden in I. assert (P2 : forall k, (0 < 2 ^ Z.max k 0)%Z) by (intros k; apply Z.pow_pos_nonneg; lia).
  assert (RP : forall a b, (0 <= a)%Z -> (0 <= b)%Z -> rel_prime (5 ^ a) (2 ^ b)).
  { intros a b Ha Hb. apply rel_prime_Zpower; auto. apply Zgcd_1_rel_prime. reflexivity. }
  assert (B5 : (5 ^ 23 = 11920928955078125)%Z) by reflexivity.
  assert (M0 : (0 < M)%Z). { pose proof (cnum_pos E f). pose proof (cden_pos E f). unfold cnum, cden in *. nia. }
  unfold DMAX, MMAX in *. change (2 ^ 25)%Z with 33554432%Z in *. split; apply Z.nlt_ge; intros C.
  - replace (Z.max E 0) with 0%Z in I by lia. rewrite Z.pow_0_r, Z.mul_1_l in I. replace (Z.max (- E) 0) with (- E)%Z in I by lia.
    assert (V : (5 ^ (- E) | D)%Z).
    { apply (Gauss _ (2 ^ Z.max (E - f) 0)%Z); [exists (M * 2 ^ Z.max (f - E) 0)%Z; lia|]. apply RP; lia. }
    apply Z.divide_pos_le in V; [|lia]. assert (5 ^ 23 <= 5 ^ (- E))%Z by (apply Z.pow_le_mono_r; lia). lia.
  - replace (Z.max (- E) 0) with 0%Z in I by lia. rewrite Z.pow_0_r, Z.mul_1_l in I. replace (Z.max E 0) with E in I by lia.
    assert (V : (5 ^ E | M)%Z).
    { apply (Gauss _ (2 ^ Z.max (f - E) 0)%Z); [exists (D * 2 ^ Z.max (E - f) 0)%Z; lia|]. apply RP; lia. }
    apply Z.divide_pos_le in V; [|lia]. assert (5 ^ 23 <= 5 ^ E)%Z by (apply Z.pow_le_mono_r; lia). lia.
Qed.

(** ** rounding the f64 *)
Lemma f32_of_interval my ey m e : canonical F32 (FFin false m e) = true -> in_interval F32 m e (qN my * p2 ey) ->
  f32_of_f64 (FFin false my ey) = FFin false m e.
Proof.
  intros C I. cbn [f32_of_f64]. destruct (ratio_of my ey) as [P B] eqn:R. destruct (ratio_of_rat _ _ _ _ R) as [HB Ev].
  apply interval_round; auto; [apply good_F32|]. now apply in_interval_comp with (2 := I).
Qed.
Lemma round_dec_interval D E m e : round_dec F32 false D E = FFin false m e -> in_interval F32 m e (qN D * p10 E).
Proof.
  unfold round_dec. destruct (Z.leb_spec 0 E); intros R; apply round_interval in R; try apply good_F32; try lia; try apply pow10_pos.
  - apply in_interval_comp with (2 := R). rewrite rat_1, qN_mul, p10_N. now replace (Z.of_N (Z.to_N E)) with E by lia.
  - apply in_interval_comp with (2 := R). unfold rat. rewrite p10_N. replace (Z.of_N (Z.to_N (- E))) with (- E)%Z by lia.
    assert (X : p10 E * p10 (- E) == 1) by (rewrite <- p10_add; replace (E + - E)%Z with 0%Z by lia; reflexivity).
    pose proof (p10_pos (- E)). assert (Y : p10 E == / p10 (- E)). { apply (Qmult_inj_r _ _ (p10 (- E))); [lra|]. rewrite X. field. lra. }
    rewrite Y. reflexivity.
Qed.
Lemma interval_round_dec D E m e : canonical F32 (FFin false m e) = true -> in_interval F32 m e (qN D * p10 E) -> round_dec F32 false D E = FFin false m e.
Proof.
  intros C R. unfold round_dec. destruct (Z.leb_spec 0 E); apply interval_round; auto; try apply good_F32; try lia; try apply pow10_pos.
  - apply in_interval_comp with (2 := R). rewrite rat_1, qN_mul, p10_N. now replace (Z.of_N (Z.to_N E)) with E by lia.
  - apply in_interval_comp with (2 := R). unfold rat. rewrite p10_N. replace (Z.of_N (Z.to_N (- E))) with (- E)%Z by lia.
    assert (X : p10 E * p10 (- E) == 1) by (rewrite <- p10_add; replace (E + - E)%Z with 0%Z by lia; reflexivity).
    pose proof (p10_pos (- E)). assert (Y : p10 E == / p10 (- E)). { apply (Qmult_inj_r _ _ (p10 (- E))); [lra|]. rewrite X. field. lra. }
    rewrite Y. reflexivity.
Qed.
Lemma stay_inside m e z y : 0 < z -> in_interval F32 m e z -> gap z (low_end F32 m e) -> gap z (high_end m e) -> close y z ->
  (z == low_end F32 m e \/ z == high_end m e -> y == z) -> in_interval F32 m e y.
Proof.
  intros Z0 [[I1 I2] I3] G1 G2 [C1 C2] T. unfold gap in G1, G2. change (inject_Z TWO54) with 18014398509481984 in *.
  destruct G1 as [G1|G1]. { apply in_interval_comp with z; [symmetry; tauto|]. split; auto. }
  destruct G2 as [G2|G2]. { apply in_interval_comp with z; [symmetry; tauto|]. split; auto. }
  assert (low_end F32 m e < y < high_end m e) by lra. split; [lra|]. auto.
Qed.
(** the value is close to [m * 2^e] compared with the width of the interval *)
Lemma margin m e y : canonical F32 (FFin false m e) = true -> let x := qN m * p2 e in
  33554432 * (y - x) < x -> 33554432 * (x - y) < x -> low_end F32 m e < y < high_end m e.
Proof.
  intros C x L1 L2. cbn [canonical] in C. rewrite !andb_true_iff, orb_true_iff, N.ltb_lt, !N.leb_le, !Z.leb_le, Z.eqb_eq in C.
  cbn [prec emin emax F32] in C. change (2 ^ Z.to_N 24)%N with 16777216%N in C. change (2 ^ Z.to_N (24 - 1))%N with 8388608%N in C.
  assert (M : qN m <= 16777216) by (change 16777216 with (qN 16777216); apply qN_le; lia).
  unfold low_end, high_end. cbn [prec emin F32]. change (2 ^ Z.to_N (24 - 1))%N with 8388608%N.
  unfold x in *. rewrite (p2_half e), (p2_pred e) in L1, L2. pose proof (p2_pos (e - 2)) as h0. 
  destruct (N.eqb_spec m 8388608) as [->|Hm]; [destruct (Z.eqb_spec e (-149)) as [->|He]|]; cbn [negb andb]; rewrite ?(p2_pred e).
  - change (qN 8388608) with 8388608 in *. rewrite (p2_pred (-149)). set (h := p2 (-149 - 2)) in *. lra.
  - change (qN 8388608) with 8388608 in *. set (h := p2 (e - 2)) in *. lra.
  - set (h := p2 (e - 2)) in *. assert (qN m * h <= 16777216 * h) by nra. lra.
Qed.
Definition near (D : N) (E : Z) (x : Q) : Prop := 2 * (qN D * p10 E - x) <= p10 E /\ 2 * (x - qN D * p10 E) <= p10 E.
Lemma exceptions_ok : forallb (fun p => match to_f64 (Z.to_N (fst p)) (snd p) with
  | Some y => flt_eqb (f32_of_f64 y) (round_dec F32 false (Z.to_N (fst p)) (snd p)) | None => false end) gap_exceptions = true.
Proof. vm_compute. reflexivity. Qed.
Lemma tie_exact D E m e M f y z : (0 < D < DMAX)%Z -> (0 <= M < MMAX)%Z -> (-150 <= f <= 103)%Z -> z == inject_Z D * p10 E -> 0 < z -> z == inject_Z M * p2 f ->
  y == qN m * p2 e -> ((-22 <= E <= 22)%Z -> forall M f, (0 < M < 2 ^ 53)%N -> (-250 <= f <= 250)%Z -> z == qN M * p2 f -> qN m * p2 e == z) -> y == z.
Proof.
  intros HD HM Hf Ez Z0 Eq Ey H. rewrite Ey. apply (H) with (M := Z.to_N M) (f := f).
  - apply (tie_exp D E M f HD HM). now rewrite <- Ez.
  - assert (M <> 0)%Z. { intros ->. rewrite Eq in Z0. change (inject_Z 0) with 0 in Z0. lra. }
    unfold MMAX in HM. change (2 ^ 25)%Z with 33554432%Z in HM. change (2 ^ 53)%N with 9007199254740992%N. lia.
  - lia.
  - rewrite Eq. unfold qN. now replace (Z.of_N (Z.to_N M)) with M by lia.
Qed.
Lemma conv_ok D E m e : canonical F32 (FFin false m e) = true -> round_dec F32 false D E = FFin false m e ->
  (0 < D < 2 ^ 53)%N -> (-53 <= E <= 38)%Z -> (Z.of_N D < DMAX)%Z \/ near D E (qN m * p2 e) ->
  option_map f32_of_f64 (to_f64 D E) = Some (FFin false m e).
Proof.
  intros C R HD HE H. destruct (to_f64_val D E HD ltac:(lia)) as (my & ey & F & Cl & Ex). rewrite F. cbn [option_map].
  apply round_dec_interval in R as I. set (z := qN D * p10 E) in *.
  assert (Z0 : 0 < z). { unfold z. pose proof (p10_pos E). assert (0 < qN D) by (apply qN_pos; lia). nra. }
  destruct (Z.lt_ge_cases (Z.of_N D) DMAX) as [S|S].
  - destruct (is_exc (Z.of_N D) E) eqn:X.
    + unfold is_exc in X. apply existsb_exists in X as ([D' E'] & In1 & Eq). cbn [fst snd] in Eq. apply andb_prop in Eq as [E1 E2].
      apply Z.eqb_eq in E1, E2. subst D' E'. pose proof exceptions_ok as A. rewrite forallb_forall in A. specialize (A _ In1). cbn [fst snd] in A.
      rewrite N2Z.id, F, R in A. apply flt_eqb_eq in A. now rewrite A.
    + f_equal. apply f32_of_interval; auto.
      destruct (low_end_form m e C) as (M1 & f1 & L1 & L2 & L3 & L4). destruct (high_end_form m e C) as (M2 & f2 & H1 & H2 & H3 & H4).
      assert (HD' : (0 < Z.of_N D < DMAX)%Z) by lia.
      apply stay_inside with z; auto.
      * assert (G : gap z (inject_Z M1 * p2 f1)) by (apply row_gap; auto). unfold gap in *. now rewrite L1.
      * assert (G : gap z (inject_Z M2 * p2 f2)) by (apply row_gap; auto). unfold gap in *. now rewrite H1.
      * intros [T|T].
        -- apply (tie_exact (Z.of_N D) E my ey M1 f1 _ z); auto; [reflexivity|now rewrite T|reflexivity].
        -- apply (tie_exact (Z.of_N D) E my ey M2 f2 _ z); auto; [reflexivity|now rewrite T|reflexivity].
  - destruct H as [H|[N1 N2]]; [lia|]. f_equal. apply f32_of_interval; auto.
    assert (K : 33554432 * p10 E <= z).
    { unfold z. apply Qmult_le_compat_r; [|pose proof (p10_pos E); lra]. change 33554432 with (qN 33554432). apply qN_le. unfold DMAX in S. change (2 ^ 25)%Z with 33554432%Z in S. lia. }
    fold z in N1, N2. destruct Cl as [C1 C2]. change (inject_Z TWO54) with 18014398509481984 in *.
    pose proof (margin m e (qN my * p2 ey) C) as Mg. cbv zeta in Mg. set (x := qN m * p2 e) in *. set (y := qN my * p2 ey) in *.
    destruct Mg as [G1 G2]; [lra|lra|]. split; [lra|auto].
Qed.

(** ** the search for the shortest digits *)
Lemma near_bounds up a b : (0 < b)%N -> let lo := (a / b)%N in
  let near_lo := match (2 * (a mod b) ?= b)%N with Lt => true | Gt => false | Eq => negb up && N.even lo end in
  let '(x, y) := if near_lo then (lo, (lo + 1)%N) else ((lo + 1)%N, lo) in
  2 * (qN x - rat a b) <= 1 /\ 2 * (rat a b - qN x) <= 1 /\ (x <= y + 1)%N /\ (y <= x + 1)%N /\ qN y <= rat a b + 1.
Proof.
  intros Hb lo. cbv zeta. pose proof (N.div_mod a b ltac:(lia)) as DM. pose proof (N.mod_lt a b ltac:(lia)) as ML. fold lo in DM.
  set (r := (a mod b)%N) in *.
  assert (X : rat a b * qN b == qN b * qN lo + qN r).
  { unfold rat. rewrite DM at 1. rewrite qN_add, qN_mul. apply qN_pos in Hb. field. lra. }
  apply qN_pos in Hb as Hb'. pose proof (qN_nonneg r) as r0. apply qN_lt in ML as ML'.
  assert (one : qN 1 == 1) by reflexivity. assert (two : qN 2 == 2) by reflexivity.
  set (q := rat a b) in *.
  assert (A : qN lo <= q <= qN lo + 1).
  { split; apply Qmult_lt_0_le_reg_r with (qN b); auto; lra. }
  assert (B : match (2 * r ?= b)%N with Lt => 2 * (q - qN lo) <= 1 | Gt => 1 <= 2 * (q - qN lo) | Eq => 2 * (q - qN lo) == 1 end).
  { destruct (N.compare_spec (2 * r) b) as [C|C|C].
    - apply qN_eq in C. rewrite qN_mul, two in C. apply (Qmult_inj_r _ _ (qN b)); lra.
    - apply qN_lt in C. rewrite qN_mul, two in C. apply Qmult_lt_0_le_reg_r with (qN b); auto; lra.
    - apply qN_lt in C. rewrite qN_mul, two in C. apply Qmult_lt_0_le_reg_r with (qN b); auto; lra. }
  destruct (2 * r ?= b)%N; [destruct (negb up && N.even lo)| |]; repeat split; try lia; rewrite ?qN_add, ?one; lra.
Qed.
Definition near_not_ok (ok : N -> Z -> bool) (E : Z) (x : Q) : Prop := exists N, near N E x /\ ok N E = false.
Lemma search_step_ratio P B t a b : (0 < B)%N -> (if (0 <=? t)%Z then ((P * 10 ^ Z.to_N t)%N, B) else (P, (B * 10 ^ Z.to_N (- t))%N)) = (a, b) ->
  (0 < b)%N /\ rat a b * p10 (- t) == rat P B.
Proof.
  intros HB. apply qN_pos in HB as qB. destruct (Z.leb_spec 0 t); intros [= <- <-].
  - split; auto. unfold rat. rewrite qN_mul, p10_N. replace (Z.of_N (Z.to_N t)) with t by lia.
    assert (X : p10 t * p10 (- t) == 1) by (rewrite <- p10_add; replace (t + - t)%Z with 0%Z by lia; reflexivity).
    transitivity (qN P * (p10 t * p10 (- t)) / qN B); [field; lra|]. rewrite X. field. lra.
  - split; [apply N.mul_pos_pos; auto; apply pow10_pos|]. unfold rat. rewrite qN_mul, p10_N. replace (Z.of_N (Z.to_N (- t))) with (- t)%Z by lia.
    pose proof (p10_pos (- t)). field. lra.
Qed.
Lemma near_scale D a b t x : rat a b * p10 (- t) == x -> 2 * (qN D - rat a b) <= 1 -> 2 * (rat a b - qN D) <= 1 -> near D (- t) x.
Proof. intros Hx A1 A2. pose proof (p10_pos (- t)). unfold near. rewrite <- Hx. split; nra. Qed.
Lemma search_spec up ok P B k fuel n D E : (0 < B)%N -> shortest_search up ok P B k fuel n = Some (D, E) ->
  exists n', (n <= n' < n + Z.of_nat fuel)%Z /\ E = (k - n')%Z /\ qN D * p10 E <= rat P B + p10 E /\
  (near D E (rat P B) \/ exists N, near N E (rat P B) /\ ok N E = false /\ (D <= N + 1)%N).
Proof.
  intros HB. revert n; induction fuel as [|fuel IH]; intros n H; cbn [shortest_search] in H; [discriminate|].
  destruct (if (0 <=? n - k)%Z then _ else _) as [a b] eqn:S. cbv zeta in H.
  destruct (search_step_ratio P B (n - k) a b HB S) as [Hb R]. pose proof (near_bounds up a b Hb) as NB. cbv zeta in NB.
  match type of H with context [let '(x, y) := ?t in _] => destruct t as [x y] end. destruct NB as (B1 & B2 & B3 & B4 & B5).
  pose proof (near_scale x a b (n - k) _ R B1 B2) as NX. pose proof (p10_pos (- (n - k))) as pp.
  destruct (ok x (- (n - k))%Z) eqn:O1; [|destruct (ok y (- (n - k))%Z) eqn:O2].
  - injection H as <- <-. exists n. split; [lia|]. split; [lia|]. split; [|auto]. destruct NX. lra.
  - injection H as <- <-. exists n. split; [lia|]. split; [lia|]. split; [rewrite <- R; nra|]. right. exists x. auto.
  - destruct (IH _ H) as (n' & Hn & Q). exists n'. split; [lia|auto].
Qed.
Lemma search_none up ok P B k fuel n n' : (0 < B)%N -> shortest_search up ok P B k fuel n = None -> (n <= n' < n + Z.of_nat fuel)%Z ->
  exists N, near N (k - n') (rat P B) /\ ok N (k - n')%Z = false.
Proof.
  intros HB. revert n; induction fuel as [|fuel IH]; intros n H Hn; [lia|]. cbn [shortest_search] in H.
  destruct (if (0 <=? n - k)%Z then _ else _) as [a b] eqn:S. cbv zeta in H.
  destruct (search_step_ratio P B (n - k) a b HB S) as [Hb R]. pose proof (near_bounds up a b Hb) as NB. cbv zeta in NB.
  match type of H with context [let '(x, y) := ?t in _] => destruct t as [x y] end. destruct NB as (B1 & B2 & _).
  pose proof (near_scale x a b (n - k) _ R B1 B2) as NX.
  destruct (ok x (- (n - k))%Z) eqn:O1; [discriminate|]. destruct (ok y (- (n - k))%Z) eqn:O2; [discriminate|].
  destruct (Z.eq_dec n' n) as [->|Ne].
  - exists x. replace (k - n)%Z with (- (n - k))%Z by lia. auto.
  - apply (IH _ H). lia.
Qed.

(** ** the decimal exponent *)
Lemma le10_spec P B j : (0 < B)%N -> (if (0 <=? j)%Z then (B * 10 ^ Z.to_N j <=? P)%N else (B <=? P * 10 ^ Z.to_N (- j))%N) = true <-> p10 j <= rat P B.
Proof.
  intros HB. rewrite rat_le by auto. destruct (Z.leb_spec 0 j); rewrite N.leb_le, qN_le, qN_mul, p10_N.
  - replace (Z.of_N (Z.to_N j)) with j by lia. now rewrite Qmult_comm.
  - replace (Z.of_N (Z.to_N (- j))) with (- j)%Z by lia.
    assert (X : p10 j * p10 (- j) == 1) by (rewrite <- p10_add; replace (j + - j)%Z with 0%Z by lia; reflexivity).
    pose proof (p10_pos j). pose proof (p10_pos (- j)). set (u := p10 j) in *. set (v := p10 (- j)) in *. split; intros L.
    + assert (Y : u * (qN P * v) == qN P) by (transitivity (qN P * (u * v)); [ring|rewrite X; ring]).
      assert (u * qN B <= u * (qN P * v)) by nra. lra.
    + assert (Y : v * (u * qN B) == qN B) by (transitivity (qN B * (u * v)); [ring|rewrite X; ring]).
      assert (v * (u * qN B) <= v * qN P) by nra. lra.
Qed.
Definition k1_ok (p : Z) : bool :=
  let k1 := (p * 30103 / 100000)%Z in Qle_bool (p10 k1) (p2 p) && Qle_bool (p2 (p + 1)) (p10 (k1 + 2)).
Lemma k1_all : forallb (fun i => k1_ok (Z.of_nat i - 149)) (seq 0 277) = true.
Proof. vm_compute. reflexivity. Qed.
Lemma dexp_spec P B : (0 < P)%N -> (0 < B)%N -> p2 (-149) <= rat P B -> rat P B < p2 128 ->
  p10 (dexp P B - 1) <= rat P B < p10 (dexp P B).
Proof.
  intros HP HB L U. destruct (fl2_rat P B HP HB) as [F1 F2]. set (p := fl2 P B) in *.
  assert (P1 : (-150 < p)%Z). { assert (-149 < p + 1)%Z by (apply p2_lt_inv; lra). lia. }
  assert (P2 : (p < 128)%Z) by (apply p2_lt_inv; lra).
  assert (K : k1_ok p = true).
  { pose proof k1_all as A. rewrite forallb_forall in A. specialize (A (Z.to_nat (p + 149))). replace (Z.of_nat (Z.to_nat (p + 149)) - 149)%Z with p in A by lia.
    apply A. apply in_seq. lia. }
  unfold k1_ok in K. cbv zeta in K. apply andb_prop in K as [K1 K2]. apply Qle_bool_iff in K1, K2.
  unfold dexp. fold p. set (k1 := (p * 30103 / 100000)%Z) in *. cbv zeta.
  pose proof (le10_spec P B (k1 + 1) HB) as LS.
  destruct (if (0 <=? k1 + 1)%Z then _ else _).
  - assert (p10 (k1 + 1) <= rat P B) by (apply LS; reflexivity). replace (k1 + 2 - 1)%Z with (k1 + 1)%Z by lia. split; [auto|lra].
  - assert (~ p10 (k1 + 1) <= rat P B) by (intros X; apply LS in X; discriminate). replace (k1 + 1 - 1)%Z with k1 by lia. split; lra.
Qed.

(** ** the digits printed for an f32 *)
Lemma f32_range m e : canonical F32 (FFin false m e) = true -> p2 (-149) <= qN m * p2 e < p2 128.
Proof.
  intros C. cbn [canonical] in C. rewrite !andb_true_iff, orb_true_iff, N.ltb_lt, !N.leb_le, !Z.leb_le, Z.eqb_eq in C.
  cbn [prec emin emax F32] in C. change (2 ^ Z.to_N 24)%N with 16777216%N in C. change (2 ^ Z.to_N (24 - 1))%N with 8388608%N in C.
  assert (M1 : 1 <= qN m) by (change 1 with (qN 1); apply qN_le; lia).
  assert (M2 : qN m < 16777216) by (change 16777216 with (qN 16777216); apply qN_lt; lia).
  assert (p2 (-149) <= p2 e) by (apply p2_le; lia). assert (p2 e <= p2 104) by (apply p2_le; lia).
  pose proof (p2_pos e). split; [nra|]. assert (X : p2 128 == 16777216 * p2 104) by reflexivity. rewrite X. nra.
Qed.
Lemma near_is_ok N E m e : canonical F32 (FFin false m e) = true -> near N E (qN m * p2 e) -> 20000000 * p10 E <= qN m * p2 e ->
  round_dec F32 false N E = FFin false m e.
Proof.
  intros C [N1 N2] L. apply interval_round_dec; auto. pose proof (p10_pos E).
  pose proof (margin m e (qN N * p10 E) C) as Mg. cbv zeta in Mg. destruct Mg as [G1 G2]; [lra|lra|]. split; [lra|auto].
Qed.
Definition f32_ok (m : N) (e : Z) (D : N) (E : Z) : bool := flt_eqb (round_dec F32 false D E) (FFin false m e).
Lemma f32_ok_refl m e D E : round_dec F32 false D E = FFin false m e -> f32_ok m e D E = true.
Proof. intros R. unfold f32_ok. rewrite R. cbn [flt_eqb]. now rewrite N.eqb_refl, Z.eqb_refl. Qed.
Lemma shortest_f32 m e D E : canonical F32 (FFin false m e) = true -> shortest false (f32_ok m e) F32 m e = (D, E) ->
  round_dec F32 false D E = FFin false m e /\ (0 < D <= 1000000000)%N /\ (-53 <= E <= 38)%Z /\ ((Z.of_N D < DMAX)%Z \/ near D E (qN m * p2 e)).
Proof.
  intros C S. unfold shortest in S. destruct (ratio_of m e) as [P B] eqn:R. destruct (ratio_of_rat _ _ _ _ R) as [HB Ex].
  assert (Hm : (0 < m)%N). { cbn [canonical] in C. rewrite !andb_true_iff, N.leb_le in C. lia. }
  pose proof (ratio_of_pos _ _ _ _ R Hm) as HP. destruct (f32_range m e C) as [X1 X2]. rewrite <- Ex in X1, X2.
  destruct (dexp_spec P B HP HB X1 X2) as [K1 K2]. set (k := dexp P B) in *. set (x := rat P B) in *.
  assert (Kl : (-45 < k)%Z). { apply p10_lt_inv. apply Qle_lt_trans with (2 := K2). apply Qle_trans with (2 := X1). vm_compute. discriminate. }
  assert (Ku : (k - 1 < 39)%Z). { apply p10_lt_inv. apply Qle_lt_trans with (1 := K1). apply Qlt_le_trans with (1 := X2). vm_compute. discriminate. }
  change (maxdigits F32) with 9%nat in S.
  destruct (shortest_search false (f32_ok m e) P B k 9 1) as [[D' E']|] eqn:Sr.
  - injection S as -> ->. apply search_ok in Sr as O. apply flt_eqb_eq in O.
    apply search_spec in Sr as (n & Hn & HE & HD & Hnear); auto. fold x in HD, Hnear.
    split; auto. pose proof (p10_pos E) as pE.
    assert (D0 : (0 < D)%N).
    { destruct (N.eq_dec D 0) as [->|]; [|lia]. exfalso. unfold round_dec, round_ratio in O. rewrite N.mul_0_l in O. destruct (0 <=? E)%Z; discriminate. }
    assert (D1 : (D <= 1000000000)%N).
    { apply N.lt_succ_r. apply qN_lt. change (qN (N.succ 1000000000)) with (1000000001).
      assert (Kn : p10 k == p10 E * p10 n). { rewrite <- p10_add. now replace (E + n)%Z with k by lia. }
      assert (Kn2 : p10 n <= 1000000000). { change 1000000000 with (p10 9). apply p10_le. lia. }
      rewrite Kn in K2. apply lt_mul_reg with (p10 E); auto. nra. }
    split; [lia|]. split; [lia|].
    assert (Nx : forall N, near N E x -> near N E (qN m * p2 e)) by (intros N; unfold near; now rewrite Ex).
    destruct Hnear as [Hnear|(N & N1 & N2 & N3)]; [right; auto|].
    destruct (Z.lt_ge_cases (Z.of_N D) DMAX) as [|G]; [auto|exfalso].
    rewrite (f32_ok_refl m e N E) in N2; [discriminate|]. apply near_is_ok; auto. rewrite <- Ex.
    assert (Hq : 33554432 <= qN N). { change 33554432 with (qN 33554432). apply qN_le. unfold DMAX in G. change (2 ^ 25)%Z with 33554432%Z in G. lia. }
    destruct N1 as [N1 N1']. nra.
  - exfalso. destruct (search_none _ _ _ _ _ _ _ 9 HB Sr ltac:(lia)) as (N & N1 & N2). fold x in N1.
    rewrite (f32_ok_refl m e N (k - 9)) in N2; [discriminate|]. apply near_is_ok; auto.
    + unfold near in *. now rewrite <- Ex.
    + rewrite <- Ex. assert (Kn : p10 (k - 1) == p10 (k - 9) * 100000000).
      { change 100000000 with (p10 8). rewrite <- p10_add. now replace (k - 9 + 8)%Z with (k - 1)%Z by lia. }
      pose proof (p10_pos (k - 9)). lra.
Qed.

(** the decimal [e_f32] writes *)
Lemma e_f32_digits s m e : canonical F32 (FFin s m e) = true -> exists D E, e_f32 (FFin s m e) = JNum (ryu_num s D E) /\
  (0 < D <= 1000000000)%N /\ (-53 <= E <= 38)%Z /\ in_interval F32 m e (qN D * p10 E) /\
  option_map f32_of_f64 (to_f64 D E) = Some (FFin false m e).
Proof.
  intros C. change (canonical F32 (FFin s m e)) with (canonical F32 (FFin false m e)) in C. cbn [e_f32].
  change (fun D E => flt_eqb (round_dec F32 false D E) (FFin false m e)) with (f32_ok m e).
  destruct (shortest false (f32_ok m e) F32 m e) as [D E] eqn:S. destruct (shortest_f32 m e D E C S) as (R & HD & HE & Hn).
  destruct (N.eqb_spec (D mod 10) 0) as [T|T].
  - pose proof (N.div_mod D 10 ltac:(lia)) as DM. rewrite T, N.add_0_r in DM. set (D' := (D / 10)%N) in *.
    assert (V : qN D' * p10 (E + 1) == qN D * p10 E). { rewrite DM, qN_mul, p10_add. change (p10 1) with 10. change (qN 10) with 10. ring. }
    assert (D0 : (0 < D')%N) by lia.
    apply round_dec_interval in R as I.
    assert (I' : in_interval F32 m e (qN D' * p10 (E + 1))) by (apply in_interval_comp with (2 := I); now rewrite V).
    assert (E38 : (E + 1 < 39)%Z).
    { apply p10_lt_inv. assert (1 <= qN D') by (change 1 with (qN 1); apply qN_le; lia). pose proof (p10_pos (E + 1)).
      destruct I' as [[_ I'] _]. pose proof (f32_range m e C) as [_ X2]. apply Qle_lt_trans with (qN D' * p10 (E + 1)); [nra|].
      apply Qle_lt_trans with (1 := I'). apply Qle_lt_trans with (p2 129); [|vm_compute; reflexivity].
      unfold high_end. rewrite (p2_half e) in X2. pose proof (p2_pos (e - 1)).
      assert (1 <= qN m). { cbn [canonical] in C. rewrite !andb_true_iff, N.leb_le in C. change 1 with (qN 1). apply qN_le. lia. }
      assert (X : p2 129 == 2 * p2 128) by reflexivity. rewrite X. nra. }
    exists D', (E + 1)%Z. split; [reflexivity|]. split; [lia|]. split; [lia|]. split; auto.
    apply conv_ok; auto; [now apply interval_round_dec|split; [lia|]; change (2 ^ 53)%N with 9007199254740992%N; lia|lia|].
    destruct Hn as [Hn|Hn]; [left; lia|right]. unfold near in *. rewrite V. pose proof (p10_le E (E + 1) ltac:(lia)). lra.
  - exists D, E. split; [reflexivity|]. split; auto. split; auto. split; [now apply round_dec_interval|].
    apply conv_ok; auto. change (2 ^ 53)%N with 9007199254740992%N; lia.
Qed.
