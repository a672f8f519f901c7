(** Decimal numbers with few digits: the double rounding of serde_json (an f64, then an f32 or an i32) gives the value that
    is nearest to the decimal number itself. *)
From Verif Require Import Base Dec Flt FltProofs FltCanon FltQ FltGap FltF32 Json SpecNumber NumberProofs NumberTextProofs.
From Coq Require Import ZifyNat ZifyN ZifyBool QArith Qpower Qfield Qabs Qround Lqa Lia.
Local Open Scope Z_scope.

Lemma significand_short n : digits_value n < 2 ^ 64 -> significand n (digits_value n) (- Z.of_nat (length (fraction n))).
Proof.
  intros H. unfold digits_value in *. rewrite decimal_app in H. pose proof (decimal_nonneg (jint n)) as P1. pose proof (decimal_nonneg (fraction n)) as P2.
  assert (T : 0 < 10 ^ Z.of_nat (length (fraction n))) by (apply Z.pow_pos_nonneg; lia).
  exists (decimal (jint n)), (length (jint n)), (length (fraction n)). split; [|split]; [| |lia].
  - split; [lia|]. rewrite firstn_all, skipn_all. split; [lia|]. split; [nia|exact I].
  - split; [lia|]. rewrite firstn_all, skipn_all, decimal_app. split; [lia|]. split; [lia|exact I].
Qed.
Lemma significand_unique n v e v' e' : significand n v e -> significand n v' e' -> v = v' /\ e = e'.
Proof. rewrite !parts_significand. intros (s & -> & P & _) (s' & -> & P' & _). rewrite P in P'. injection P' as -> ->. auto. Qed.

Local Open Scope Q_scope.
(** an integer below 2^53 times a power of two is an f64 *)
Lemma f64_exact M f y : (0 < M < 2 ^ 53)%N -> (-250 <= f <= 250)%Z -> f64 (binary M f) y -> exists m e, y = FFin false m e /\ (0 < m)%N /\ magnitude y == binary M f.
Proof.
  intros HM Hf Y. destruct (ratio_of M f) as [P B] eqn:R. apply ratio_of_size in R as [HB R]. unfold f64 in Y. rewrite <- R in Y.
  apply nearest_iff in Y; [|exact wide_F64|assumption]. destruct (exact64 false P B M f HB HM Hf) as (m & e & E & V); [now rewrite R, size_p2|].
  exists m, e. rewrite E in Y. split; [assumption|]. subst y. cbn [magnitude]. rewrite size_p2, V, R. split; [|reflexivity].
  destruct (N.eq_dec m 0) as [->|]; [exfalso|lia]. rewrite R in V. change (qN 0) with 0 in V. pose proof (size_pos M f ltac:(lia)). lra.
Qed.
Lemma f64_integer v y : (0 <= v < 2 ^ 53)%Z -> f64 (inject_Z v) y -> plain y /\ magnitude y == inject_Z v.
Proof.
  intros H Y. destruct (Z.eq_dec v 0) as [->|].
  - apply f64_zero in Y; [|reflexivity]. subst y. split; [now left|reflexivity].
  - assert (E : inject_Z v == binary (Z.to_N v) 0). { rewrite size_p2. change (p2 0) with 1. unfold qN. rewrite Z2N.id by lia. ring. }
    unfold f64 in Y. rewrite E in Y. destruct (f64_exact (Z.to_N v) 0 y ltac:(lia) ltac:(lia) Y) as (m & e & -> & m0 & V). split; [right; eauto|now rewrite E].
Qed.
Lemma f64_ten k p : (0 <= k <= 22)%Z -> f64 (ten k) p -> (exists m e, p = FFin false m e /\ (0 < m)%N) /\ magnitude p == ten k.
Proof.
  intros H P. assert (E : ten k == binary (5 ^ Z.to_N k) k).
  { rewrite size_p2. unfold ten, qN, p2. rewrite N2Z.inj_pow, Zpower_Qpower by lia. replace (Z.of_N (Z.to_N k)) with k by lia. now rewrite <- Qmult_power. }
  unfold f64 in P. rewrite E in P. destruct (f64_exact (5 ^ Z.to_N k) k p) as (m & e & -> & m0 & V); [|lia|exact P|].
  - split; [apply pow5_pos|]. apply N.le_lt_trans with (5 ^ 22)%N; [apply N.pow_le_mono_r; lia|reflexivity].
  - split; [eauto|now rewrite E].
Qed.
Lemma ten_opp k : ten k * ten (- k) == 1.
Proof. unfold ten. rewrite <- Qpower_plus by discriminate. now replace (k + - k)%Z with 0%Z by lia. Qed.
(** the f64 of a short number is nearest to it *)
Lemma digits_nonneg n : (0 <= digits_value n)%Z. Proof. apply decimal_nonneg. Qed.
Lemma exact_nonneg n : 0 <= exact_value n.
Proof. unfold exact_value. pose proof (ten_pos (power n)). pose proof (digits_nonneg n) as D. rewrite Zle_Qle in D. change (inject_Z 0) with 0 in D. nra. Qed.
Lemma scaled_short v k y x : (0 <= v < 2 ^ 53)%Z -> (Z.abs k <= 22)%Z -> f64 (inject_Z v) y -> scaled y k x -> f64 (inject_Z v * ten k) x.
Proof.
  intros Hv Hk Y S. destruct (f64_integer v y Hv Y) as [_ V]. destruct S as [y k p x E P X NI|y k p x E P X|k E|y k p y' x E]; try lia.
  - destruct (f64_ten k p ltac:(lia) P) as [_ W]. unfold f64 in *. now rewrite V, W in X.
  - destruct (f64_ten (- k) p ltac:(lia) P) as [_ W]. unfold f64 in *. rewrite V, W in X. pose proof (ten_opp k). pose proof (ten_pos (- k)).
    assert (Eq : inject_Z v * ten k == inject_Z v / ten (- k)); [|now rewrite Eq]. unfold Qdiv.
    assert (ten k == / ten (- k)) as ->; [|reflexivity]. apply (Qmult_inj_r _ _ (ten (- k))); [lra|]. rewrite H. field. lra.
Qed.
Lemma signed_nearest n f q x : nearest f false q x -> nearest f (jneg n) q (signed_as n x).
Proof. intros H. unfold signed_as. destruct (jneg n); [|assumption]. now apply nearest_neg in H. Qed.
Lemma short_value n : jfrac n = None -> jexp n = None -> exact_value n == inject_Z (decimal (jint n)).
Proof.
  intros F E. unfold exact_value, digits_value, power, exponent, exponent_value, fraction. rewrite F, E. cbn [length]. rewrite app_nil_r. change (ten (0 - Z.of_nat 0)) with 1. ring.
Qed.
Lemma short_unsigned n y : short n -> float_text n y -> exists x, y = signed_as n x /\ f64 (exact_value n) x.
Proof.
  intros (D & E & K) T. pose proof (digits_nonneg n) as D0. destruct T as [x F X _ _ Y|v e y x _ _ S Y Sc|v e X]; [| |lia].
  - exists x. split; [reflexivity|]. unfold f64. now rewrite short_value.
  - exists x. split; [reflexivity|]. destruct (significand_unique _ _ _ _ _ S (significand_short n ltac:(lia))) as [-> ->].
    apply (scaled_short (digits_value n) (power n) y); auto. unfold power. now replace (exponent n - Z.of_nat (length (fraction n)))%Z with (- Z.of_nat (length (fraction n)) + exponent n)%Z by lia.
Qed.
Theorem short_f64 n y : short n -> float_text n y -> nearest F64 (jneg n) (exact_value n) y.
Proof. intros S T. destruct (short_unsigned n y S T) as (x & -> & X). now apply signed_nearest. Qed.

(** ** Rational numbers *)
Lemma Q_rat q : 0 <= q -> q == rat (Z.to_N (Qnum q)) (Npos (Qden q)).
Proof.
  intros H. destruct q as [a b]. unfold rat, qN. cbn [Qnum Qden] in *. assert (0 <= a)%Z by (unfold Qle in H; cbn in H; lia).
  rewrite Z2N.id by assumption. change (Z.of_N (N.pos b)) with (Z.pos b). unfold Qdiv, Qinv, inject_Z, Qeq, Qmult. cbn. lia.
Qed.
Lemma nearest_total f neg q : wide f -> 0 <= q -> exists x, nearest f neg q x.
Proof. intros W H. eexists. rewrite (Q_rat q H). apply round_nearest; [assumption|reflexivity]. Qed.
Lemma f64_error q y : p2 (-1000) <= q -> q < p2 1000 -> f64 q y ->
  exists m e, y = FFin false m e /\ (0 < m)%N /\ q * (1 - U53) <= binary m e <= q * (1 + U53).
Proof.
  intros L H Y. pose proof (p2_pos (-1000)) as p0. assert (q0 : 0 <= q) by lra. pose proof (Q_rat q q0) as E. unfold f64 in Y. rewrite E in Y.
  apply nearest_iff in Y; [|exact wide_F64|reflexivity]. set (P := Z.to_N (Qnum q)) in *. set (B := N.pos (Qden q)) in *.
  destruct (round_error F64 false P B) as (m & e & A & W).
  - exact good_F64.
  - destruct (N.eq_dec P 0) as [Z0|]; [exfalso|lia]. rewrite Z0 in E. unfold rat in E. change (qN 0) with 0 in E. unfold Qdiv in E. rewrite Qmult_0_l in E. lra.
  - reflexivity.
  - rewrite <- E. apply Qle_trans with (2 := L). apply p2_le. cbn. lia.
  - rewrite <- E. apply Qlt_le_trans with (1 := H). apply p2_le. cbn. lia.
  - exists m, e. rewrite <- E, U53_p2 in W. rewrite size_p2. split; [congruence|]. split; [|exact W].
    destruct (N.eq_dec m 0) as [->|]; [exfalso|lia]. change (qN 0) with 0 in W. unfold U53 in W. lra.
Qed.
Lemma p2_small : p2 (-1000) <= ten (-22).
Proof. apply Qle_bool_iff. vm_compute. reflexivity. Qed.
Lemma ten_le a b : (a <= b)%Z -> ten a <= ten b.
Proof. intros H. unfold ten. apply Qpower_le_compat_l; [assumption|]. apply Qle_bool_iff. reflexivity. Qed.
Lemma p2_big : inject_Z (2 ^ 53) * ten 22 <= p2 900.
Proof. apply Qle_bool_iff. vm_compute. reflexivity. Qed.
Lemma short_range v k : (0 < v < 2 ^ 53)%Z -> (Z.abs k <= 22)%Z -> p2 (-1000) <= inject_Z v * ten k < p2 1000.
Proof.
  intros Hv Hk. pose proof (ten_le (-22) k ltac:(lia)) as T1. pose proof (ten_le k 22 ltac:(lia)) as T2. pose proof p2_small. pose proof p2_big.
  assert (V1 : 1 <= inject_Z v) by (change 1 with (inject_Z 1); rewrite <- Zle_Qle; lia).
  assert (V2 : inject_Z v <= inject_Z (2 ^ 53)) by (rewrite <- Zle_Qle; lia).
  pose proof (ten_pos k). pose proof (ten_pos (-22)). assert (B : p2 900 < p2 1000) by (apply p2_lt; lia).
  set (t := ten k) in *. set (u := inject_Z v) in *. set (w := inject_Z (2 ^ 53)) in *. set (t2 := ten 22) in *. split; [nra|].
  apply Qle_lt_trans with (2 := B). apply Qle_trans with (w * t2); [|assumption]. nra.
Qed.
(** a short number is in range *)
Theorem short_total n : short n -> ~ integral n -> exists y, float_text n y.
Proof.
  intros (D & E & K) NI. pose proof (digits_nonneg n) as D0.
  assert (C : (jfrac n = None /\ jexp n = None) \/ (jfrac n <> None \/ jexp n <> None \/ 2 ^ 64 <= decimal (jint n))%Z).
  { destruct (jfrac n); [right; left; discriminate|]. destruct (jexp n); [right; right; left; discriminate|]. now left. }
  destruct C as [[F X]|C].
  - assert (V : digits_value n = decimal (jint n)). { unfold digits_value, fraction. rewrite F. now rewrite app_nil_r. }
    destruct (nearest_total F64 false (inject_Z (decimal (jint n))) wide_F64) as [x N0]; [rewrite <- V; change 0 with (inject_Z 0); now rewrite <- Zle_Qle|].
    exists (signed_as n x). apply float_text_whole; auto. lia.
  - destruct (nearest_total F64 false (inject_Z (digits_value n)) wide_F64) as [y Y]; [change 0 with (inject_Z 0); now rewrite <- Zle_Qle|].
    assert (S : exists x, scaled y (power n) x).
    { assert (EV : 0 <= exact_value n) by apply exact_nonneg. destruct (f64_integer _ _ (conj D0 D) Y) as [Py V].
      destruct (nearest_total F64 false (exact_value n) wide_F64 EV) as [x X].
      exists x. destruct (Z.le_gt_cases 0 (power n)) as [P|P].
      - apply scaled_up with (pow10 (power n)); [lia|now apply pow10_is| |].
        + destruct (f64_ten (power n) _ ltac:(lia) (pow10_is _ P)) as [_ W]. unfold f64. now rewrite V, W.
        + intros ->. destruct (Z.eq_dec (digits_value n) 0) as [Z0|Z0].
          * apply (f64_zero (exact_value n) (FInf false)) in X; [discriminate|]. unfold exact_value. rewrite Z0. change (inject_Z 0) with 0. ring.
          * destruct (short_range (digits_value n) (power n)) as [R1 R2]; [lia|lia|]. destruct (f64_error (exact_value n) (FInf false) R1 R2 X) as (m & e & Q & _). discriminate.
      - apply scaled_down with (pow10 (- power n)); [lia|apply pow10_is; lia|].
        destruct (f64_ten (- power n) (pow10 (- power n)) ltac:(lia) (pow10_is (- power n) ltac:(lia))) as [_ W]. unfold f64. rewrite V, W.
        pose proof (ten_opp (power n)). pose proof (ten_pos (- power n)).
        assert (Eq : inject_Z (digits_value n) / ten (- power n) == exact_value n); [|now rewrite Eq]. unfold exact_value, Qdiv.
        assert (ten (power n) == / ten (- power n)) as ->; [|reflexivity]. apply (Qmult_inj_r _ _ (ten (- power n))); [lra|]. rewrite H. field. lra. }
    destruct S as [x S]. exists (signed_as n x). apply (float_text_scaled n (digits_value n) (- Z.of_nat (length (fraction n))) y x C E); [now apply significand_short; lia|exact Y|].
    unfold power in S. now replace (- Z.of_nat (length (fraction n)) + exponent n)%Z with (exponent n - Z.of_nat (length (fraction n)))%Z by lia.
Qed.

(** ** f32 *)
(** a decimal number with at most eight decimals is a midpoint between two f32 values or far from it *)
Lemma decimal_gap D K M f : (0 < D < 2 ^ 53)%Z -> (0 <= K <= 8)%Z -> (0 <= M < 2 ^ 25)%Z ->
  let q := inject_Z D * ten (- K) in let L := inject_Z M * p2 f in
  q == L \/ U53 * q < q - L \/ U53 * q < L - q.
Proof.
  intros HD HK HM q L. assert (TT : ten K == inject_Z (10 ^ K)) by (unfold ten; now rewrite Zpower_Qpower by lia).
  assert (T8 : ten K <= 100000000). { change 100000000 with (inject_Z (10 ^ 8)). rewrite TT, <- Zle_Qle. apply Z.pow_le_mono_r; lia. }
  pose proof (ten_opp K) as O. pose proof (ten_pos K) as T0. pose proof (ten_pos (- K)) as T1. pose proof (p2_pos f) as p0.
  assert (D1 : 1 <= inject_Z D) by (change 1 with (inject_Z 1); rewrite <- Zle_Qle; lia).
  assert (D2 : inject_Z D < 9007199254740992) by (change 9007199254740992 with (inject_Z (2 ^ 53)); rewrite <- Zlt_Qlt; lia).
  assert (M1 : 0 <= inject_Z M) by (change 0 with (inject_Z 0); rewrite <- Zle_Qle; lia).
  assert (M2 : inject_Z M < 33554432) by (change 33554432 with (inject_Z (2 ^ 25)); rewrite <- Zlt_Qlt; lia).
  assert (QT : q * ten K == inject_Z D) by (unfold q; rewrite <- Qmult_assoc, (Qmult_comm (ten (- K))), O; ring).
  assert (q0 : 0 < q) by (unfold q; nra).
  destruct (Qlt_le_dec L ((1 # 2) * q)) as [C|C]; [right; left; unfold U53; lra|].
  assert (F : q <= 67108864 * p2 f) by (unfold L in C; nra).
  destruct (Z.le_gt_cases 0 f) as [f0|f0].
  - assert (P : p2 f == inject_Z (2 ^ f)) by (unfold p2; now rewrite Zpower_Qpower by lia).
    assert (I : (q - L) * ten K == inject_Z (D - M * 2 ^ f * 10 ^ K)).
    { unfold Zminus. rewrite inject_Z_plus, inject_Z_opp, !inject_Z_mult, <- P, <- TT. unfold L. rewrite <- QT. ring. }
    destruct (Z.lt_trichotomy (D - M * 2 ^ f * 10 ^ K) 0) as [N0|[N0|N0]].
    + right. right. assert (X : inject_Z (D - M * 2 ^ f * 10 ^ K) <= inject_Z (-1)) by (rewrite <- Zle_Qle; lia). change (inject_Z (-1)) with (-1) in X.
      rewrite <- I in X. apply (Qmult_lt_r _ _ (ten K)); [assumption|]. rewrite <- Qmult_assoc, QT. unfold U53. lra.
    + left. rewrite N0 in I. change (inject_Z 0) with 0 in I. apply Qmult_integral in I as [I|I]; lra.
    + right. left. assert (X : inject_Z 1 <= inject_Z (D - M * 2 ^ f * 10 ^ K)) by (rewrite <- Zle_Qle; lia). change (inject_Z 1) with 1 in X.
      rewrite <- I in X. apply (Qmult_lt_r _ _ (ten K)); [assumption|]. rewrite <- Qmult_assoc, QT. unfold U53. lra.
  - assert (P : p2 f * inject_Z (2 ^ (- f)) == 1). { rewrite Zpower_Qpower by lia. change (inject_Z 2 ^ (- f)) with (p2 (- f)). rewrite Qmult_comm. exact (p2_opp f). }
    assert (I : (q - L) * ten K == inject_Z (D * 2 ^ (- f) - M * 10 ^ K) * p2 f).
    { unfold Zminus. rewrite inject_Z_plus, inject_Z_opp, !inject_Z_mult, <- TT. unfold L. rewrite <- QT.
      transitivity (q * ten K * (p2 f * inject_Z (2 ^ (- f))) - inject_Z M * p2 f * ten K); [rewrite P; ring|ring]. }
    destruct (Z.lt_trichotomy (D * 2 ^ (- f) - M * 10 ^ K) 0) as [N0|[N0|N0]].
    + right. right. assert (X : inject_Z (D * 2 ^ (- f) - M * 10 ^ K) <= inject_Z (-1)) by (rewrite <- Zle_Qle; lia). change (inject_Z (-1)) with (-1) in X.
      assert (Y : p2 f <= (L - q) * ten K) by nra. unfold U53. nra.
    + left. rewrite N0 in I. change (inject_Z 0) with 0 in I. assert (I' : (q - L) * ten K == 0) by lra. apply Qmult_integral in I' as [I'|I']; lra.
    + right. left. assert (X : inject_Z 1 <= inject_Z (D * 2 ^ (- f) - M * 10 ^ K)) by (rewrite <- Zle_Qle; lia). change (inject_Z 1) with 1 in X.
      assert (Y : p2 f <= (q - L) * ten K) by nra. unfold U53. nra.
Qed.

Lemma F32_zero_end : high_end 0 (-149) < ten (-22).
Proof. apply Qnot_le_lt. intros C. apply Qle_bool_iff in C. revert C. vm_compute. discriminate. Qed.
Lemma F32_limit : inject_Z (2 ^ 54) < limit F32.
Proof. apply Qnot_le_lt. intros C. apply Qle_bool_iff in C. revert C. vm_compute. discriminate. Qed.
Theorem double_rounding D K y x : (0 <= D < 2 ^ 53)%Z -> (0 <= K <= 8)%Z -> let q := inject_Z D * ten (- K) in
  f64 q y -> nearest F32 false (magnitude y) x -> nearest F32 false q x.
Proof.
  intros HD HK q Y X. destruct (Z.eq_dec D 0) as [->|D0].
  { assert (q0 : q == 0) by (unfold q; change (inject_Z 0) with 0; ring). apply f64_zero in Y; [|assumption]. subst y. cbn [magnitude] in X. now rewrite q0. }
  destruct (short_range D (- K) ltac:(lia) ltac:(lia)) as [R1 R2]. fold q in R1, R2. destruct (f64_error q y R1 R2 Y) as (my & ey & -> & my0 & V). cbn [magnitude] in X.
  pose proof (ten_le (-22) (- K) ltac:(lia)) as T1. pose proof (ten_le (- K) 0 ltac:(lia)) as T2. change (ten 0) with 1 in T2.
  assert (D1 : 1 <= inject_Z D) by (change 1 with (inject_Z 1); rewrite <- Zle_Qle; lia).
  assert (D2 : inject_Z D <= inject_Z (2 ^ 53)) by (rewrite <- Zle_Qle; lia).
  pose proof (ten_pos (-22)) as T0. assert (B1 : ten (-22) <= q) by (unfold q; nra). assert (B2 : q <= inject_Z (2 ^ 53)) by (unfold q; nra).
  assert (Ex : forall M f, (0 < M < 2 ^ 53)%N -> (-250 <= f <= 250)%Z -> q == binary M f -> binary my ey == q).
  { intros M f HM Hf E. unfold f64 in Y. rewrite E in Y. destruct (f64_exact M f _ HM Hf Y) as (m & e & _ & _ & W). cbn [magnitude] in W. now rewrite W, E. }
  set (v := binary my ey) in *.
  assert (v0 : 0 <= v) by (unfold U53 in V; lra).
  inversion X as [m e M L H1 H2 Ef|L Ef].
  - pose proof (nearest_interval F32 m e v good_F32 M v0 L H1 H2) as I. apply (interval_nearest F32); [exact good_F32|assumption|].
    assert (m0 : (0 < m)%N).
    { destruct (N.eq_dec m 0) as [->|]; [exfalso|lia]. destruct M as (_ & _ & [M| ->]); [now vm_compute in M|]. destruct I as [[_ I] _]. cbn [emin F32] in I.
      pose proof F32_zero_end as FZ. unfold high_end in *. change (qN 0) with 0 in *. set (h := p2 (-149 - 1)) in *. unfold U53 in V.
      assert (h0 : 0 < h) by apply p2_pos.
      assert (F2 : 4 * h < ten (-22)). { apply Qnot_le_lt. intros C. apply Qle_bool_iff in C. revert C. vm_compute. discriminate. } lra. }
    assert (C : canonical F32 (FFin false m e) = true) by now apply canonical_member.
    destruct (low_end_form m e C) as (M1 & f1 & L1 & L2 & L3 & _). destruct (high_end_form m e C) as (M2 & f2 & G1 & G2 & G3 & _).
    change MMAX with (2 ^ 25)%Z in L2, G2.
    assert (Tie : forall Mx fx, (0 <= Mx < 2 ^ 25)%Z -> (-150 <= fx <= 103)%Z -> q == inject_Z Mx * p2 fx -> v == q).
    { intros Mx fx HM Hf E. apply (Ex (Z.to_N Mx) fx); [|lia|].
      - assert (Mx <> 0)%Z. { intros ->. change (inject_Z 0) with 0 in E. lra. } lia.
      - rewrite size_p2, E. unfold qN. now rewrite Z2N.id by lia. }
    destruct (decimal_gap D K M1 f1 ltac:(lia) HK L2) as [A|A]; [apply (in_interval_comp F32 m e v q); [now apply (Tie M1 f1)|assumption]|].
    destruct (decimal_gap D K M2 f2 ltac:(lia) HK G2) as [B|B]; [apply (in_interval_comp F32 m e v q); [now apply (Tie M2 f2)|assumption]|].
    fold q in A, B. rewrite <- L1 in A. rewrite <- G1 in B. destruct I as [[I1 I2] _].
    assert (low_end F32 m e < q < high_end m e) by lra. split; [lra|auto].
  - exfalso. pose proof F32_limit as FL. assert (inject_Z (2 ^ 53) * 2 == inject_Z (2 ^ 54)) by reflexivity. unfold U53 in V. lra.
Qed.

(** ** i32 *)
Lemma int_member t : (0 <= t < 2 ^ 53)%Z -> exists m e, member F64 m e /\ binary m e == inject_Z t.
Proof.
  intros H. destruct (nearest_total F64 false (inject_Z t) wide_F64) as [x X]; [change 0 with (inject_Z 0); rewrite <- Zle_Qle; lia|].
  destruct (f64_integer t x H X) as [_ V]. inversion X as [m e M L _ _ E|L E].
  - exists m, e. split; [assumption|]. rewrite <- V. subst x. unfold float. destruct (N.eqb_spec m 0) as [->|]; [|reflexivity]. cbn [magnitude]. apply size_0.
  - exfalso. pose proof (p2_lt 53 900 ltac:(lia)) as P. pose proof (proj2 H) as H'. rewrite Zlt_Qlt in H'. change (inject_Z (2 ^ 53)) with (p2 53) in H'.
    assert (LL : p2 900 <= limit F64) by (apply Qle_bool_iff; vm_compute; reflexivity). lra.
Qed.
Lemma whole_big neg v z : inject_Z (2 ^ 31) <= v -> whole_part neg v z <-> z = (if neg then - 2 ^ 31 else 2 ^ 31 - 1)%Z.
Proof.
  intros H. assert (K : forall t, inject_Z t <= v -> v < inject_Z (t + 1) -> (2 ^ 31 <= t)%Z).
  { intros t A B. assert (2 ^ 31 < t + 1)%Z by (rewrite Zlt_Qlt; lra). lia. }
  split.
  - intros (t & [A B] & ->). specialize (K t A B). destruct neg; lia.
  - intros ->. exists (Qfloor v). pose proof (Qfloor_le v) as A. pose proof (Qlt_floor v) as B. specialize (K _ A B). split; [split; assumption|]. destruct neg; lia.
Qed.
Lemma whole_same neg v w z : (forall t : Z, inject_Z t <= v < inject_Z (t + 1) -> inject_Z t <= w < inject_Z (t + 1)) -> whole_part neg w z <-> whole_part neg v z.
Proof.
  intros H. split.
  - intros (t & A & ->). exists (Qfloor v). pose proof (Qfloor_le v) as F1. pose proof (Qlt_floor v) as F2. split; [split; assumption|].
    specialize (H (Qfloor v) (conj F1 F2)). assert (t < Qfloor v + 1)%Z by (rewrite Zlt_Qlt; lra). assert (Qfloor v < t + 1)%Z by (rewrite Zlt_Qlt; lra).
    now replace (Qfloor v) with t by lia.
  - intros (t & A & ->). exists t. split; [now apply H|reflexivity].
Qed.
Lemma whole_Qeq neg v w z : v == w -> whole_part neg v z <-> whole_part neg w z.
Proof. intros E. unfold whole_part. setoid_rewrite E. reflexivity. Qed.
Theorem whole_rounding neg D k y z : (0 <= D < 2 ^ 53)%Z -> (Z.abs k <= 22)%Z -> let q := inject_Z D * ten k in
  f64 q y -> whole_part neg (magnitude y) z <-> whole_part neg q z.
Proof.
  intros HD HK q Y. destruct (Z.eq_dec D 0) as [->|D0].
  { assert (q0 : q == 0) by (unfold q; change (inject_Z 0) with 0; ring). apply f64_zero in Y; [|assumption]. subst y. apply whole_Qeq. now rewrite q0. }
  destruct (short_range D k ltac:(lia) HK) as [R1 R2]. fold q in R1, R2. destruct (f64_error q y R1 R2 Y) as (my & ey & E & my0 & V).
  assert (My : magnitude y == binary my ey) by now rewrite E. pose proof (p2_pos (-1000)) as p0.
  destruct (Z.le_gt_cases k 0) as [k0|k0].
  - apply whole_same. intros t [A B]. pose proof (ten_opp k) as O. pose proof (ten_pos k) as T0. pose proof (ten_pos (- k)) as T1.
    assert (TT : ten (- k) == inject_Z (10 ^ (- k))) by (unfold ten; now rewrite Zpower_Qpower by lia).
    assert (QT : q * ten (- k) == inject_Z D) by (unfold q; rewrite <- Qmult_assoc, O; ring).
    assert (T2 : ten k <= 1) by (change 1 with (ten 0); apply ten_le; lia).
    assert (D1 : 0 < inject_Z D) by (change 0 with (inject_Z 0); rewrite <- Zlt_Qlt; lia).
    assert (qD : q <= inject_Z D) by (unfold q; nra).
    assert (t0 : (0 <= t)%Z). { assert (0 < t + 1)%Z by (rewrite Zlt_Qlt; change (inject_Z 0) with 0; lra). lia. }
    split.
    + assert (tD : (t <= D)%Z) by (rewrite Zle_Qle; lra). destruct (int_member t ltac:(lia)) as (m & e & M & W).
      destruct (nearest_ge F64 false q y m e good_F64 Y M ltac:(lra)) as [G|G]; [lra|congruence].
    + assert (I : (D < (t + 1) * 10 ^ (- k))%Z). { rewrite Zlt_Qlt, inject_Z_mult, <- TT, <- QT. apply (Qmult_lt_r _ _ (ten (- k))); assumption. }
      assert (I' : inject_Z (D + 1) <= inject_Z (t + 1) * ten (- k)) by (rewrite TT, <- inject_Z_mult, <- Zle_Qle; lia).
      rewrite inject_Z_plus in I'. change (inject_Z 1) with 1 in I'. rewrite <- QT in I'. rewrite My.
      apply (Qmult_lt_r _ _ (ten (- k))); [assumption|]. apply Qlt_le_trans with (2 := I').
      apply Qle_lt_trans with (q * (1 + U53) * ten (- k)). { apply Qmult_le_compat_r; lra. }
      assert (D2 : inject_Z D < 9007199254740992) by (change 9007199254740992 with (inject_Z (2 ^ 53)); rewrite <- Zlt_Qlt; lia). rewrite <- QT in D2.
      assert (X : q * (1 + U53) * ten (- k) == q * ten (- k) + U53 * (q * ten (- k))) by ring. rewrite X. unfold U53. lra.
  - assert (TT : ten k == inject_Z (10 ^ k)) by (unfold ten; now rewrite Zpower_Qpower by lia).
    assert (I : q == inject_Z (D * 10 ^ k)) by (unfold q; now rewrite inject_Z_mult, <- TT).
    destruct (Z.lt_ge_cases (D * 10 ^ k) (2 ^ 53)) as [S|S].
    + assert (0 < 10 ^ k)%Z by (apply Z.pow_pos_nonneg; lia). unfold f64 in Y. rewrite I in Y. destruct (f64_integer (D * 10 ^ k) y ltac:(nia) Y) as [_ W]. apply whole_Qeq. now rewrite W, I.
    + rewrite Zle_Qle, <- I in S. assert (B : inject_Z (2 ^ 31) <= inject_Z (2 ^ 53)) by (rewrite <- Zle_Qle; lia).
      rewrite !whole_big; [reflexivity|lra|].
      assert (M : member F64 (2 ^ 52) 1). { split; [reflexivity|]. split; [cbn; lia|]. left. apply N.leb_le. reflexivity. }
      assert (W : binary (2 ^ 52) 1 == inject_Z (2 ^ 53)) by reflexivity.
      destruct (nearest_ge F64 false q y _ _ good_F64 Y M ltac:(lra)) as [G|G]; [lra|congruence].
Qed.

(** ** What the readers make of short numbers *)
Lemma nearest_unique f neg q x x' : wide f -> 0 <= q -> nearest f neg q x -> nearest f neg q x' -> x = x'.
Proof. intros W H. rewrite (Q_rat q H). rewrite !nearest_iff by (assumption || reflexivity). congruence. Qed.
Lemma signed_negative n x : plain x -> negative (signed_as n x) = jneg n /\ magnitude (signed_as n x) == magnitude x.
Proof. intros [->|(m & e & -> & _)]; unfold signed_as; destruct (jneg n); cbn; split; reflexivity. Qed.
Lemma f64_plain_short n x : short n -> f64 (exact_value n) x -> plain x.
Proof.
  intros (D & _ & K) X. pose proof (digits_nonneg n) as D0. destruct (Z.eq_dec (digits_value n) 0) as [Z0|Z0].
  - left. apply (f64_zero (exact_value n)); [|assumption]. unfold exact_value. rewrite Z0. change (inject_Z 0) with 0. ring.
  - destruct (short_range (digits_value n) (power n)) as [R1 R2]; [lia|lia|]. destruct (f64_error (exact_value n) x R1 R2 X) as (m & e & -> & m0 & _). right. eauto.
Qed.
Theorem short_to_f32 n y x : short n -> (-8 <= power n <= 0)%Z -> float_text n y -> to_f32 y x -> nearest F32 (jneg n) (exact_value n) x.
Proof.
  intros S P T X. destruct (short_unsigned n y S T) as (y' & -> & Y). destruct (signed_negative n y' (f64_plain_short n y' S Y)) as [N0 M0].
  unfold to_f32 in X. rewrite N0, M0 in X. pose proof (digits_nonneg n) as D0. destruct S as (D & _ & _).
  assert (E : exact_value n == inject_Z (digits_value n) * ten (- - power n)) by (rewrite Z.opp_involutive; reflexivity).
  unfold f64 in Y. rewrite E in Y |- *. destruct (jneg n).
  - apply nearest_neg. cbn [negb]. apply nearest_neg in X. cbn [negb] in X. apply (double_rounding (digits_value n) (- power n) y'); auto; lia.
  - apply (double_rounding (digits_value n) (- power n) y'); auto; lia.
Qed.
Theorem short_to_i32 n y z : short n -> float_text n y -> to_i32 y z <-> whole_part (jneg n) (exact_value n) z.
Proof.
  intros S T. destruct (short_unsigned n y S T) as (y' & -> & Y). destruct (signed_negative n y' (f64_plain_short n y' S Y)) as [N0 M0].
  unfold to_i32. rewrite N0, (whole_Qeq _ _ _ z M0). pose proof (digits_nonneg n) as D0. destruct S as (D & _ & K). now apply whole_rounding.
Qed.
