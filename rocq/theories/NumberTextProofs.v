(** serde_json's numbers ([Json.classify]) are as in [SpecNumber]. *)
From Verif Require Import Base Dec Flt FltProofs FltCanon FltQ Json SpecNumber NumberProofs.
From Coq Require Import ZifyNat ZifyN ZifyBool QArith Qabs Qpower Qfield Lqa.
Local Open Scope Q_scope.

(** ** Arithmetic *)
Lemma rat_1 v : rat v 1 == qN v.
Proof. unfold rat. change (qN 1) with 1. field. Qed.
Lemma f64_N v x : f64 (inject_Z (Z.of_N v)) x <-> x = f64_of_N v.
Proof. unfold f64. change (inject_Z (Z.of_N v)) with (qN v). rewrite <- rat_1. now rewrite nearest_iff by (try exact wide_F64; reflexivity). Qed.
Lemma ratio_of_size m e P Q : ratio_of m e = (P, Q) -> (0 < Q)%N /\ rat P Q == binary m e.
Proof.
  unfold ratio_of. rewrite size_p2. destruct (Z.leb_spec 0 e) as [L|L]; intros [= <- <-].
  - split; [reflexivity|]. rewrite rat_1, qN_mul, p2_N. now replace (Z.of_N (Z.to_N e)) with e by lia.
  - split; [apply N.neq_0_lt_0, N.pow_nonzero; discriminate|]. unfold rat. rewrite p2_N. replace (Z.of_N (Z.to_N (- e))) with (- e)%Z by lia.
    pose proof (p2_opp e) as X. pose proof (p2_pos (- e)). apply Qmult_inj_r with (p2 (- e)); [lra|]. rewrite <- Qmult_assoc, (Qmult_comm (p2 e)), X. field. lra.
Qed.
(** the values the reader computes with: finite and positive *)
Definition plain (x : flt) : Prop := x = FZero false \/ exists m e, x = FFin false m e /\ (0 < m)%N.
Lemma size_pos m e : (0 < m)%N -> 0 < binary m e.
Proof. intros H. rewrite size_p2. apply qN_pos in H. pose proof (p2_pos e). nra. Qed.
Lemma size_0 e : binary 0 e == 0.
Proof. rewrite size_p2. change (qN 0) with 0. ring. Qed.
Lemma f64_zero q x : q == 0 -> f64 q x <-> x = FZero false.
Proof.
  intros E. unfold f64. rewrite E. assert (Z0 : 0 == rat 0 1) by reflexivity. rewrite Z0.
  rewrite nearest_iff by (try exact wide_F64; reflexivity). reflexivity.
Qed.
Lemma fmul_nearest y p x : plain y -> plain p -> f64 (magnitude y * magnitude p) x <-> x = fmul y p.
Proof.
  intros Py [->|(m' & e' & -> & H')].
  { rewrite f64_zero by (cbn [magnitude]; ring). destruct Py as [->|(m & e & -> & _)]; reflexivity. }
  destruct Py as [->|(m & e & -> & H)].
  { rewrite f64_zero by (cbn [magnitude]; ring). reflexivity. }
  cbn [magnitude fmul]. destruct (ratio_of (m * m') (e + e')) as [P Q] eqn:R. apply ratio_of_size in R as [Q0 R]. unfold f64.
  assert (X : binary m e * binary m' e' == rat P Q). { rewrite R, !size_p2, qN_mul, p2_add. ring. }
  rewrite X. now rewrite nearest_iff by (try exact wide_F64; assumption).
Qed.
Lemma fdiv_nearest y p x : plain y -> (exists m e, p = FFin false m e /\ (0 < m)%N) -> f64 (magnitude y / magnitude p) x <-> x = fdiv y p.
Proof.
  intros Py (m' & e' & -> & H'). destruct Py as [->|(m & e & -> & H)].
  { rewrite f64_zero; [reflexivity|]. cbn [magnitude]. pose proof (size_pos m' e' H'). field. lra. }
  cbn [magnitude fdiv]. destruct (ratio_of m e) as [P Q] eqn:R. destruct (ratio_of m' e') as [P' Q'] eqn:R'.
  apply ratio_of_size in R as [Q0 R]. apply ratio_of_size in R' as [Q0' R']. unfold f64.
  pose proof (size_pos m' e' H') as S'.
  assert (P0' : (0 < P')%N). { destruct (N.eq_dec P' 0) as [->|]; [exfalso|lia]. unfold rat in R'. change (qN 0) with 0 in R'.
    assert (E : 0 / qN Q' == 0) by (apply qN_pos in Q0'; field; lra). lra. }
  assert (X : binary m e / binary m' e' == rat (P * Q') (Q * P')).
  { rewrite <- R, <- R'. unfold rat. rewrite !qN_mul. apply qN_pos in P0', Q0, Q0'. field. repeat split; lra. }
  rewrite X. rewrite nearest_iff by (try exact wide_F64; nia). reflexivity.
Qed.

(** ** Bounds of roundings *)
Lemma nearest_le f neg q x m e : good_format f -> nearest f neg q x -> member f m e -> 0 <= q -> q <= binary m e -> magnitude x <= binary m e /\ x <> FInf neg.
Proof.
  intros G N0 M Q0 L. destruct N0 as [m1 e1 M1 L1 H1 H2|L1].
  - split; [|unfold float; destruct (_ =? _)%N; discriminate]. assert (E : magnitude (float neg m1 e1) == binary m1 e1).
    { unfold float. destruct (N.eqb_spec m1 0) as [->|]; [cbn [magnitude]; now rewrite size_0|reflexivity]. }
    rewrite E. specialize (H1 m e M). destruct (Qlt_le_dec (binary m e) (binary m1 e1)) as [C|]; [exfalso|assumption].
    rewrite !Qabs_neg in H1 by lra. lra.
  - exfalso. destruct (high_end_limit f m e G M) as [X _]. pose proof (high_end_mid m e). pose proof (above_gt m e). lra.
Qed.
Lemma nearest_tiny f neg q x : wide f -> nearest f neg q x -> 0 <= q -> q < p2 (emin f - 1) -> x = FZero neg.
Proof.
  intros [G W] N0 Q0 L. destruct N0 as [m e M L1 H1 H2|L1].
  - destruct (nearest_interval f m e q G M Q0 L1 H1 H2) as [[I1 _] _]. unfold float. destruct (N.eqb_spec m 0) as [|m0]; [reflexivity|exfalso].
    assert (m1 : 1 <= qN m) by (change 1 with (qN 1); apply qN_le; lia). destruct M as (M1 & M2 & M3).
    assert (X : p2 (emin f - 1) <= p2 (e - 1)) by (apply p2_le; lia). pose proof (p2_pos (e - 1)). pose proof (p2_pred e) as PP. pose proof (p2_pos (e - 2)).
    unfold low_end in I1. destruct (_ && _) eqn:B; [|nra]. apply andb_true_iff in B as [_ B]. apply negb_true_iff, Z.eqb_neq in B.
    assert (X2 : p2 (emin f - 1) <= p2 (e - 2)) by (apply p2_le; lia). nra.
  - exfalso. assert (X : p2 (emin f - 1) <= limit f); [|lra].
    unfold limit. rewrite size_p2. assert (T0 : (0 < 2 ^ Z.to_N (prec f))%N) by (apply N.neq_0_lt_0, N.pow_nonzero; discriminate).
    assert (O : 1 <= qN (2 * 2 ^ Z.to_N (prec f) - 1)) by (change 1 with (qN 1); apply qN_le; lia).
    pose proof (p2_le (emin f - 1) (emax f - 1) ltac:(lia)). pose proof (p2_pos (emax f - 1)). nra.
Qed.
Lemma nearest_ge f neg q x m e : good_format f -> nearest f neg q x -> member f m e -> binary m e <= q -> binary m e <= magnitude x \/ x = FInf neg.
Proof.
  intros G N0 M L. destruct N0 as [m1 e1 M1 L1 H1 H2|L1]; [left|now right].
  assert (E : magnitude (float neg m1 e1) == binary m1 e1).
  { unfold float. destruct (N.eqb_spec m1 0) as [->|]; [cbn [magnitude]; now rewrite size_0|reflexivity]. }
  rewrite E. specialize (H1 m e M). destruct (Qlt_le_dec (binary m1 e1) (binary m e)) as [C|]; [exfalso|assumption].
  rewrite !Qabs_pos in H1 by lra. lra.
Qed.
Lemma nearest_cases f q x : nearest f false q x -> plain x \/ x = FInf false.
Proof.
  intros [m e M _ _ _|_]; [left|now right]. unfold float. destruct (N.eqb_spec m 0); [now left|right]. exists m, e. split; [reflexivity|lia].
Qed.

Lemma p2_lt a b : (a < b)%Z -> p2 a < p2 b.
Proof. intros H. now apply Qpower_lt_compat_l. Qed.
(** the powers of ten *)
Definition pow10 (k : Z) : flt := round_ratio F64 false (10 ^ Z.to_N k) 1.
Lemma ten_N k : (0 <= k)%Z -> ten k == qN (10 ^ Z.to_N k).
Proof.
  intros H. unfold ten, qN. rewrite N2Z.inj_pow. replace (Z.of_N (Z.to_N k)) with k by lia. change (Z.of_N 10) with 10%Z.
  now rewrite Zpower_Qpower.
Qed.
Lemma pow10_f64 k p : (0 <= k)%Z -> f64 (ten k) p <-> p = pow10 k.
Proof. intros H. unfold f64. rewrite ten_N, <- rat_1 by assumption. now rewrite nearest_iff by (try exact wide_F64; reflexivity). Qed.
Lemma pow10_is k : (0 <= k)%Z -> f64 (ten k) (pow10 k).
Proof. intros H. now apply pow10_f64. Qed.
Lemma max_member : member F64 (2 ^ 53 - 1) 971.
Proof. split; [reflexivity|]. split; [cbn; lia|]. left. discriminate. Qed.
Lemma pow_le k : (0 <= k <= 308)%Z -> 1 <= ten k /\ ten k <= binary (2 ^ 53 - 1) 971.
Proof.
  intros H. rewrite ten_N by lia. split.
  - change 1 with (qN 1). apply qN_le. pose proof (N.pow_nonzero 10 (Z.to_N k)). lia.
  - apply Qle_trans with (qN (10 ^ 308)). { apply qN_le. apply N.pow_le_mono_r; lia. }
    assert (E : binary (2 ^ 53 - 1) 971 == qN ((2 ^ 53 - 1) * 2 ^ 971)). { rewrite size_p2, qN_mul, p2_N. reflexivity. }
    rewrite E. apply (proj1 (qN_le _ _)). apply N.leb_le. vm_compute. reflexivity.
Qed.
Lemma ten_pos k : 0 < ten k.
Proof. unfold ten. now apply Qpower_0_lt. Qed.
Lemma pow10_finite k : (0 <= k <= 308)%Z -> exists m e, pow10 k = FFin false m e /\ (0 < m)%N.
Proof.
  intros H. destruct (pow_le k H) as [L1 L2]. assert (N0 : f64 (ten k) (pow10 k)) by now apply pow10_f64.
  destruct (nearest_le F64 false (ten k) _ _ _ good_F64 N0 max_member ltac:(lra) L2) as [_ NI].
  destruct (nearest_cases _ _ _ N0) as [[E|X]|E]; [exfalso|exact X|easy].
  assert (M : member F64 (2 ^ 52) (-52)). { split; [reflexivity|]. split; [cbn; lia|]. left. apply N.leb_le. reflexivity. }
  assert (S : binary (2 ^ 52) (-52) == 1) by reflexivity.
  destruct (nearest_ge F64 false (ten k) _ _ _ good_F64 N0 M ltac:(lra)) as [X|X]; [|congruence]. rewrite E in X. cbn [magnitude] in X. lra.
Qed.
Lemma pow308 : exists m e, pow10 308 = FFin false m e /\ (0 < m)%N /\ p2 1023 <= binary m e.
Proof.
  destruct (pow10_finite 308 ltac:(lia)) as (m & e & E & H). exists m, e. split; [assumption|]. split; [assumption|].
  pose proof (pow10_is 308 ltac:(lia)) as N0.
  assert (M : member F64 (2 ^ 52) 971). { split; [reflexivity|]. split; [cbn; lia|]. left. apply N.leb_le. reflexivity. }
  assert (S : binary (2 ^ 52) 971 == p2 1023). { rewrite size_p2, p2_N, <- p2_add. reflexivity. }
  destruct (nearest_ge F64 false (ten 308) _ _ _ good_F64 N0 M) as [X|X].
  - rewrite S, ten_N by lia. change 1023%Z with (Z.of_N 1023). rewrite <- p2_N. apply (proj1 (qN_le _ _)). apply N.leb_le. vm_compute. reflexivity.
  - rewrite E, S in X. exact X.
  - congruence.
Qed.

(** ** [f64_from_parts] *)
Lemma POW10_is : POW10_308 = pow10 308.
Proof. unfold POW10_308, pow10. reflexivity. Qed.
Local Opaque p2 pow10 POW10_308 ten.
Lemma fdiv308 y : plain y -> magnitude y <= p2 64 -> exists y', fdiv y POW10_308 = y' /\ plain y' /\ f64 (magnitude y / magnitude (pow10 308)) y' /\
  magnitude y' <= p2 (-950) /\ (magnitude y <= p2 (-950) -> y' = FZero false).
Proof.
  intros Py Y64. destruct pow308 as (m & e & E & m0 & L). exists (fdiv y POW10_308). split; [reflexivity|].
  rewrite POW10_is.
  assert (N0 : f64 (magnitude y / magnitude (pow10 308)) (fdiv y (pow10 308))). { apply fdiv_nearest; eauto. }
  pose proof (size_pos m e m0) as S0. pose proof (p2_pos 1023) as p23.
  assert (Y0 : 0 <= magnitude y). { destruct Py as [->|(m1 & e1 & -> & H1)]; cbn [magnitude]; [lra|]. pose proof (size_pos m1 e1 H1). lra. }
  assert (D : forall a b, magnitude y <= p2 a -> (a - 1023 <= b)%Z -> 0 <= magnitude y / magnitude (pow10 308) <= p2 b).
  { intros a b A B. rewrite E. cbn [magnitude]. split; [apply Qle_shift_div_l; lra|]. apply Qle_shift_div_r; [assumption|].
    apply Qle_trans with (1 := A). apply Qle_trans with (p2 (b + 1023)); [apply p2_le; lia|]. rewrite p2_add. pose proof (p2_pos b). nra. }
  assert (A950 : magnitude (fdiv y (pow10 308)) <= p2 (-950) /\ fdiv y (pow10 308) <> FInf false).
  { destruct (D 64%Z (-950)%Z Y64 ltac:(lia)) as [D1 D2].
    assert (M : member F64 (2 ^ 52) (-1002)). { split; [reflexivity|]. split; [cbn; lia|]. left. apply N.leb_le. reflexivity. }
    assert (S : binary (2 ^ 52) (-1002) == p2 (-950)). { rewrite size_p2, p2_N, <- p2_add. reflexivity. }
    rewrite <- S. refine (nearest_le F64 false _ _ _ _ good_F64 N0 M D1 _). now rewrite S. }
  split; [|split; [assumption|split; [apply A950|]]].
  - destruct (nearest_cases _ _ _ N0) as [P|P]; [exact P|now destruct A950].
  - intros A. destruct (D (-950)%Z (-1100)%Z A ltac:(lia)) as [D1 D2].
    apply (nearest_tiny F64 false _ _ wide_F64 N0 D1). apply Qle_lt_trans with (1 := D2). apply p2_lt. cbn. lia.
Qed.
Lemma from_parts_in fuel y ex x : plain y -> (Z.abs ex <= 308)%Z -> f64_from_parts fuel y ex = Some x <-> scaled y ex x.
Proof.
  intros Py L. assert (E : f64_from_parts fuel y ex = if (0 <=? ex)%Z then match fmul y (pow10 (Z.abs ex)) with FInf _ => None | r => Some r end
    else Some (fdiv y (pow10 (Z.abs ex)))).
  { destruct fuel; cbn [f64_from_parts]; destruct (Z.leb_spec (Z.abs ex) 308); try lia; reflexivity. }
  rewrite E. clear E. destruct (Z.leb_spec 0 ex) as [S|S].
  - rewrite Z.abs_eq by assumption. pose proof (pow10_finite ex ltac:(lia)) as (m & e & Ep & m0).
    assert (Pp : plain (pow10 ex)) by (right; eauto). split.
    + intros R. apply scaled_up with (pow10 ex); [lia|now apply pow10_f64| |].
      * apply fmul_nearest; auto. destruct (fmul y (pow10 ex)); congruence.
      * intros ->. destruct (fmul y (pow10 ex)); discriminate.
    + intros R. inversion R as [? ? p ? R1 R2 R3 R4|? ? p ? R1|? R1|? ? ? ? ? R1]; subst; try lia.
      apply pow10_f64 in R2; [|lia]. subst p. apply fmul_nearest in R3; auto. subst x.
      destruct (fmul y (pow10 ex)) as [|s| |] eqn:F; try reflexivity. exfalso. apply R4.
      assert (N0 : f64 (magnitude y * magnitude (pow10 ex)) (fmul y (pow10 ex))) by now apply fmul_nearest.
      rewrite F in N0. apply nearest_cases in N0 as [[N0|(? & ? & N0 & _)]|N0]; congruence.
  - replace (Z.abs ex) with (- ex)%Z by lia. pose proof (pow10_finite (- ex) ltac:(lia)) as Fp. split.
    + intros R. apply scaled_down with (pow10 (- ex)); [lia|apply pow10_f64; [lia|reflexivity]|]. apply fdiv_nearest; auto. congruence.
    + intros R. inversion R as [? ? p ? R1|? ? p ? R1 R2 R3|? R1|? ? ? ? ? R1]; subst; try lia.
      apply pow10_f64 in R2; [|lia]. subst p. apply fdiv_nearest in R3; auto. now subst.
Qed.
Lemma from_parts_zero fuel ex : (308 < Z.abs ex)%Z -> f64_from_parts fuel (FZero false) ex = Some (FZero false).
Proof. intros L. destruct fuel; cbn [f64_from_parts]; destruct (Z.leb_spec (Z.abs ex) 308); try lia; reflexivity. Qed.
Lemma scaled_zero_inv ex x : (308 < Z.abs ex)%Z -> scaled (FZero false) ex x <-> x = FZero false.
Proof.
  intros L. split.
  - intros R. inversion R as [? ? p ? R1|? ? p ? R1 R2 R3|? R1|? ? ? ? ? R1 R2]; subst; try lia; easy.
  - intros ->. now apply scaled_zero.
Qed.
(** enough fuel: 3 from a significand, 2 after one division, 1 after two *)
Definition enough (fuel : nat) (y : flt) : Prop :=
  match fuel with
  | O => False
  | 1%nat => y = FZero false
  | 2%nat => magnitude y <= p2 (-950)
  | S (S (S _)) => magnitude y <= p2 64
  end.
Lemma p2_950 : p2 (-950) <= p2 64.
Proof. apply p2_le. lia. Qed.
Lemma enough_64 fuel y : enough fuel y -> magnitude y <= p2 64.
Proof.
  pose proof p2_950. pose proof (p2_pos 64). destruct fuel as [|[|[|k]]]; cbn [enough]; intros E; [easy|subst; cbn [magnitude]; lra|lra|assumption].
Qed.
Theorem from_parts_scaled fuel : forall y ex x, (fuel <= 3)%nat -> plain y -> enough fuel y -> f64_from_parts fuel y ex = Some x <-> scaled y ex x.
Proof.
  induction fuel as [|k IH]; intros y ex x K3 Py En; [easy|]. destruct (Z.le_gt_cases (Z.abs ex) 308) as [L|L]; [now apply from_parts_in|].
  destruct Py as [->|(m & e & E & m0)].
  { rewrite from_parts_zero by assumption. rewrite scaled_zero_inv by assumption. split; congruence. }
  destruct (fdiv308 y) as (y' & D & Py' & N' & B1 & B2). { right. eauto. } { eapply enough_64; eauto. }
  assert (En' : enough k y').
  { destruct k as [|[|[|k]]]; cbn [enough] in *; [congruence|exact (B2 En)|exact B1|lia]. }
  assert (F : f64_from_parts (S k) y ex = if (0 <=? ex)%Z then None else f64_from_parts k y' (ex + 308)).
  { rewrite E in *. cbn [f64_from_parts]. destruct (Z.leb_spec (Z.abs ex) 308); [lia|]. now rewrite D. }
  rewrite F. destruct (Z.leb_spec 0 ex) as [S|S].
  - split; [discriminate|]. intros R. inversion R as [? ? p ? R1|? ? p ? R1 R2 R3|? R1|? ? ? ? ? R1 R2]; [lia|lia|congruence|lia].
  - rewrite IH by (auto; lia). split.
    + intros R. exact (scaled_low y ex (pow10 308) y' x ltac:(lia) ltac:(now rewrite E) (pow10_is 308 ltac:(lia)) N' R).
    + intros R. inversion R as [? ? p ? R1|? ? p ? R1 R2 R3|? R1|? ? p y1 ? R1 R2 R3 R4 R5]; [lia|lia|congruence|].
      apply (proj1 (pow10_f64 308 p ltac:(lia))) in R3. subst p. destruct pow308 as (? & ? & E8 & m8 & _).
      apply fdiv_nearest in R4; [|right; eauto|eauto]. rewrite <- POW10_is, D in R4. now subst y1.
Qed.
(** far below the range every number becomes zero, far above only zero is read *)
Lemma from_parts_far y ex : plain y -> magnitude y <= p2 64 -> (ex < -1000)%Z -> f64_from_parts 3 y ex = Some (FZero false).
Proof.
  intros Py B L. apply from_parts_scaled; [lia|assumption|assumption|].
  destruct (fdiv308 y Py B) as (y1 & D1 & P1 & N1 & B1 & _).
  destruct (fdiv308 y1 P1) as (y2 & D2 & P2 & N2 & _ & B2). { pose proof p2_950. lra. } specialize (B2 B1).
  destruct Py as [->|(m & e & E & m0)]. { apply scaled_zero. lia. }
  refine (scaled_low y ex (pow10 308) y1 _ ltac:(lia) ltac:(now rewrite E) (pow10_is 308 ltac:(lia)) N1 _).
  destruct P1 as [->|(m1 & e1 & E1 & m1')]. { apply scaled_zero. lia. }
  refine (scaled_low y1 (ex + 308) (pow10 308) (FZero false) _ ltac:(lia) ltac:(now rewrite E1) (pow10_is 308 ltac:(lia)) _ _); [rewrite <- B2; exact N2|apply scaled_zero; lia].
Qed.
Lemma from_parts_high fuel y ex : (308 < ex)%Z -> f64_from_parts fuel y ex = match y with FZero _ => Some y | _ => None end.
Proof. intros L. destruct fuel; cbn [f64_from_parts]; destruct (Z.leb_spec (Z.abs ex) 308), (Z.leb_spec 0 ex); try lia; destruct y; reflexivity. Qed.

(** ** Digits *)
Local Open Scope Z_scope.
Lemma decimal_nonneg ds : 0 <= decimal ds.
Proof. induction ds as [|d r IH]; cbn [decimal]; [lia|]. pose proof (Z.pow_nonneg 10 (Z.of_nat (length r))). nia. Qed.
Lemma decimal_acc ds : forall acc,
  fst (acc_int acc ds) = (acc * 10 ^ N.of_nat (length ds) + Z.to_N (decimal ds))%N /\ snd (acc_int acc ds) = 0 /\
    (acc * 10 ^ N.of_nat (length ds) + Z.to_N (decimal ds) <= N.max acc U64MAX)%N \/
  snd (acc_int acc ds) > 0 /\ (U64MAX < acc * 10 ^ N.of_nat (length ds) + Z.to_N (decimal ds))%N.
Proof.
  induction ds as [|d r IH]; intros acc; cbn [acc_int decimal length].
  - left. cbn [fst snd]. change (10 ^ N.of_nat 0)%N with 1%N. cbn. lia.
  - pose proof (decimal_nonneg r) as P. pose proof (N.pow_nonzero 10 (N.of_nat (length r)) ltac:(discriminate)) as Q.
    replace (Z.of_nat (length r)) with (Z.of_N (N.of_nat (length r))) by lia.
    assert (EQ : (acc * 10 ^ N.of_nat (S (length r)) + Z.to_N (Z.of_N (d - 48) * 10 ^ Z.of_N (N.of_nat (length r)) + decimal r)
      = (acc * 10 + (d - 48)) * 10 ^ N.of_nat (length r) + Z.to_N (decimal r))%N).
    { assert (P1 : 0 <= 10 ^ Z.of_N (N.of_nat (length r))) by (apply Z.pow_nonneg; lia).
      assert (P2 : 0 <= Z.of_N (d - 48) * 10 ^ Z.of_N (N.of_nat (length r))) by (apply Z.mul_nonneg_nonneg; [lia|assumption]).
      rewrite Z2N.inj_add by assumption. rewrite Z2N.inj_mul by (assumption || lia). rewrite N2Z.id.
      rewrite Z2N.inj_pow, !N2Z.id by lia. change (Z.to_N 10) with 10%N.
      rewrite Nat2N.inj_succ, N.pow_succ_r'. ring. }
    rewrite EQ. destruct (N.leb_spec (acc * 10 + (d - 48)) U64MAX) as [L|L].
    + destruct (IH (acc * 10 + (d - 48))%N) as [(A & B & C)|(A & B)].
      * left. repeat split; try assumption. lia.
      * right. split; assumption.
    + right. cbn [snd]. split; [lia|]. nia.
Qed.
Lemma acc_int0 ds :
  (acc_int 0 ds = (Z.to_N (decimal ds), 0) /\ decimal ds < 2 ^ 64) \/ (snd (acc_int 0 ds) > 0 /\ 2 ^ 64 <= decimal ds).
Proof.
  pose proof (decimal_nonneg ds) as P. destruct (decimal_acc ds 0) as [(A & B & C)|(A & B)].
  - left. rewrite N.mul_0_l, N.add_0_l in A, C. split; [|unfold U64MAX in C; lia]. rewrite <- A, <- B. now destruct (acc_int 0 ds).
  - right. rewrite N.mul_0_l, N.add_0_l in B. split; [assumption|unfold U64MAX in B; lia].
Qed.
Lemma digits_decimal ds : Z.of_N (digits_N ds) = decimal ds.
Proof.
  assert (K : forall ds a, Z.of_N (fold_left (fun a c => a * 10 + (c - 48))%N ds a) = Z.of_N a * 10 ^ Z.of_nat (length ds) + decimal ds).
  { clear. induction ds as [|d r IH]; intros a; cbn [fold_left decimal length]; [change (10 ^ Z.of_nat 0) with 1; lia|].
    rewrite IH, Nat2Z.inj_succ, Z.pow_succ_r by lia. rewrite N2Z.inj_add, N2Z.inj_mul. change (Z.of_N 10) with 10. ring. }
  unfold digits_N. rewrite K. cbn. reflexivity.
Qed.
Lemma decimal_app a b : decimal (a ++ b) = decimal a * 10 ^ Z.of_nat (length b) + decimal b.
Proof.
  induction a as [|d a IH]; [cbn; lia|]. cbn [app decimal]. rewrite IH, app_length, Nat2Z.inj_add, Z.pow_add_r by lia. ring.
Qed.
Lemma leading_cons v0 d r v k : leading v0 (d :: r) v (S k) <-> leading (v0 * 10 + Z.of_N (d - 48)) r v k.
Proof.
  unfold leading. cbn [length firstn skipn decimal].
  assert (LE : forall A B, (S k <= S (length r))%nat /\ A /\ B <-> (k <= length r)%nat /\ A /\ B) by (intros; intuition lia).
  assert (EQ : (k <= length r)%nat -> v0 * 10 ^ Z.of_nat (S k) + (Z.of_N (d - 48) * 10 ^ Z.of_nat (length (firstn k r)) + decimal (firstn k r)) =
    (v0 * 10 + Z.of_N (d - 48)) * 10 ^ Z.of_nat k + decimal (firstn k r)).
  { intros L. rewrite firstn_length_le by assumption. rewrite Nat2Z.inj_succ, Z.pow_succ_r by lia. ring. }
  split; intros (L & E & R); (split; [lia|]); (split; [|exact R]); rewrite E, EQ by lia; reflexivity.
Qed.
Lemma leading_0 v0 ds v : leading v0 ds v 0 <-> v = v0 /\ v < 2 ^ 64 /\ match ds with [] => True | d :: _ => 2 ^ 64 <= v * 10 + Z.of_N (d - 48) end.
Proof.
  unfold leading. cbn [firstn skipn decimal]. change (10 ^ Z.of_nat 0) with 1. split.
  - intros (_ & -> & R). rewrite Z.mul_1_r, Z.add_0_r in *. split; [reflexivity|exact R].
  - intros (-> & R). split; [lia|]. split; [lia|exact R].
Qed.
Lemma leading_fits v0 ds v k : 0 <= v0 -> leading v0 ds v k -> v0 < 2 ^ 64.
Proof.
  intros P (L & E & B & _). pose proof (decimal_nonneg (firstn k ds)). assert (1 <= 10 ^ Z.of_nat k) by (apply (Z.pow_le_mono_r 10 0); lia). nia.
Qed.
Lemma acc_frac_leading ds : forall acc ex v ex', Z.of_N acc < 2 ^ 64 ->
  acc_frac acc ex ds = (v, ex') <-> exists k, leading (Z.of_N acc) ds (Z.of_N v) k /\ ex' = ex - Z.of_nat k.
Proof.
  induction ds as [|d r IH]; intros acc ex v ex' A; cbn [acc_frac].
  - split.
    + intros [= -> ->]. exists O. split; [|lia]. apply leading_0. auto.
    + intros (k & L & ->). assert (k = O) as -> by (destruct L as [L _]; cbn [length] in L; lia). apply leading_0 in L as [E _]. f_equal; lia.
  - assert (E10 : Z.of_N (acc * 10 + (d - 48)) = Z.of_N acc * 10 + Z.of_N (d - 48)) by lia.
    destruct (N.leb_spec (acc * 10 + (d - 48)) U64MAX) as [L|L]; unfold U64MAX in L.
    + rewrite IH by lia. rewrite E10. split.
      * intros (k & Le & ->). exists (S k). split; [now apply leading_cons|lia].
      * intros (k & Le & ->). destruct k as [|k]; [apply leading_0 in Le as (E & _ & Le); lia|]. exists k. split; [now apply leading_cons|lia].
    + split.
      * intros [= -> ->]. exists O. split; [|lia]. apply leading_0. split; [reflexivity|]. lia.
      * intros (k & Le & ->). destruct k as [|k]; [apply leading_0 in Le as (E & _); f_equal; lia|]. exfalso.
        apply leading_cons, leading_fits in Le; lia.
Qed.
Lemma acc_int_frac ds : forall acc, acc_int acc ds = (fst (acc_frac acc 0 ds), snd (acc_frac acc 0 ds) + Z.of_nat (length ds)).
Proof.
  assert (SH : forall ds acc ex, acc_frac acc ex ds = (fst (acc_frac acc 0 ds), ex + snd (acc_frac acc 0 ds))).
  { clear. induction ds as [|d r IH]; intros acc ex; cbn [acc_frac]; [cbn; f_equal; lia|]. destruct (_ <=? _)%N; [|cbn; f_equal; lia].
    rewrite IH. rewrite (IH _ (0 - 1)). cbn [fst snd]. f_equal. lia. }
  induction ds as [|d r IH]; intros acc; cbn [acc_int acc_frac]; [reflexivity|]. destruct (_ <=? _)%N.
  - rewrite IH, (SH r _ (0 - 1)). cbn [fst snd length]. f_equal. lia.
  - cbn [fst snd length]. f_equal.
Qed.
Lemma acc_int_leading ds v ex : acc_int 0 ds = (v, ex) <-> exists k, leading 0 ds (Z.of_N v) k /\ ex = Z.of_nat (length ds) - Z.of_nat k.
Proof.
  rewrite acc_int_frac. destruct (acc_frac 0 0 ds) as [w e] eqn:F. cbn [fst snd]. split.
  - intros [= -> <-]. apply acc_frac_leading in F as (k & L & ->); [|reflexivity]. exists k. split; [exact L|lia].
  - intros (k & L & ->). assert (F' : acc_frac 0 0 ds = (v, 0 - Z.of_nat k)) by (apply acc_frac_leading; [reflexivity|eauto]).
    rewrite F in F'. injection F' as -> ->. f_equal. lia.
Qed.
(** the significand and the power of ten that the reader takes *)
Definition parts (n : jnum) : N * Z := let '(sig, ex0) := acc_int 0 (jint n) in acc_frac sig ex0 (fraction n).
Lemma leading_nonneg v0 ds v k : 0 <= v0 -> leading v0 ds v k -> 0 <= v < 2 ^ 64.
Proof. intros P (L & -> & B & _). split; [|exact B]. pose proof (decimal_nonneg (firstn k ds)). assert (0 <= 10 ^ Z.of_nat k) by (apply Z.pow_nonneg; lia). nia. Qed.
Lemma parts_significand n v e : significand n v e <-> exists s, v = Z.of_N s /\ parts n = (s, e) /\ v < 2 ^ 64.
Proof.
  unfold parts. destruct (acc_int 0 (jint n)) as [sig ex0] eqn:A. apply acc_int_leading in A as A'. destruct A' as (k1 & L1 & E1).
  pose proof (leading_nonneg 0 _ _ _ ltac:(lia) L1) as B1. split.
  - intros (v1 & k1' & k2 & L1' & L2 & ->). pose proof (leading_nonneg 0 _ _ _ ltac:(lia) L1') as B1'.
    assert (A2 : acc_int 0 (jint n) = (Z.to_N v1, Z.of_nat (length (jint n)) - Z.of_nat k1')).
    { apply acc_int_leading. exists k1'. split; [|reflexivity]. rewrite Z2N.id by lia. exact L1'. }
    rewrite A in A2. injection A2 as -> EE. pose proof (leading_nonneg v1 _ _ _ ltac:(lia) L2) as B2.
    exists (Z.to_N v). split; [lia|]. split; [|lia]. apply acc_frac_leading; [lia|]. exists k2. rewrite !Z2N.id by lia. split; [exact L2|lia].
  - intros (s & -> & F & _). apply acc_frac_leading in F as (k2 & L2 & ->); [|lia]. exists (Z.of_N sig), k1, k2. split; [exact L1|]. split; [exact L2|]. lia.
Qed.
Lemma parts_total n : exists s e, parts n = (s, e) /\ Z.of_N s < 2 ^ 64.
Proof.
  destruct (parts n) as [s e] eqn:P. exists s, e. split; [reflexivity|]. unfold parts in P. destruct (acc_int 0 (jint n)) as [sig ex0] eqn:A.
  apply acc_int_leading in A as (k1 & L1 & E1). pose proof (leading_nonneg 0 _ _ _ ltac:(lia) L1) as B1.
  apply acc_frac_leading in P as (k2 & L2 & _); [|lia]. apply leading_nonneg in L2; lia.
Qed.

(** ** Numbers *)
Lemma f64_sig s : (Z.of_N s < 2 ^ 64)%Z -> plain (f64_of_N s) /\ (magnitude (f64_of_N s) <= p2 64)%Q.
Proof.
  intros H. assert (N0 : f64 (inject_Z (Z.of_N s)) (f64_of_N s)) by now apply f64_N.
  assert (M : member F64 (2 ^ 52) 12). { split; [reflexivity|]. split; [cbn; lia|]. left. apply N.leb_le. reflexivity. }
  assert (S : (binary (2 ^ 52) 12 == p2 64)%Q). { rewrite size_p2, p2_N, <- p2_add. reflexivity. }
  assert (L : (inject_Z (Z.of_N s) <= binary (2 ^ 52) 12)%Q).
  { rewrite S. change 64%Z with (Z.of_N 64). rewrite <- p2_N. apply (proj1 (qN_le _ _)). lia. }
  destruct (nearest_le F64 false _ _ _ _ good_F64 N0 M (qN_nonneg s) L) as [B NI]. rewrite S in B.
  split; [|exact B]. now destruct (nearest_cases _ _ _ N0).
Qed.
Definition scaled_class (n : jnum) : numclass :=
  let '(sig2, ex1) := parts n in
  let sgn (x : flt) := if jneg n then flt_neg x else x in
  match jexp n with
  | None => match f64_from_parts 3 (f64_of_N sig2) ex1 with Some x => NF64 (sgn x) | None => NRange end
  | Some (eneg, ds) =>
    if (2147483647 <? digits_N ds)%N then
      if negb (sig2 =? 0)%N && negb eneg then NRange else NF64 (sgn (FZero false))
    else
      let ex2 := if eneg then Z.max (ex1 - Z.of_N (digits_N ds)) (-2147483648) else Z.min (ex1 + Z.of_N (digits_N ds)) 2147483647 in
      match f64_from_parts 3 (f64_of_N sig2) ex2 with Some x => NF64 (sgn x) | None => NRange end
  end.
Lemma classify_cases n : classify n =
  if (match jfrac n, jexp n with None, None => decimal (jint n) <? 2 ^ 64 | _, _ => false end)
  then if jneg n then if ((Z.to_N (decimal (jint n)) =? 0) || (9223372036854775808 <? Z.to_N (decimal (jint n))))%N
                      then NF64 (flt_neg (f64_of_N (Z.to_N (decimal (jint n))))) else NI64 (- decimal (jint n))
       else NU64 (Z.to_N (decimal (jint n)))
  else scaled_class n.
Proof.
  unfold classify, scaled_class, parts, fraction. destruct n as [neg ds fr ex]. cbn [jneg jint jfrac jexp]. pose proof (decimal_nonneg ds) as P.
  destruct (acc_int0 ds) as [[E L]|[E L]].
  - rewrite E. change (0 =? 0) with true. destruct (Z.ltb_spec (decimal ds) (2 ^ 64)); [|lia].
    destruct fr, ex; try reflexivity. rewrite Z2N.id by lia. reflexivity.
  - destruct (acc_int 0 ds) as [sig ex0]. cbn [snd] in E. destruct (Z.eqb_spec ex0 0); [lia|]. destruct (Z.ltb_spec (decimal ds) (2 ^ 64)); [lia|].
    destruct fr, ex; reflexivity.
Qed.
Lemma from_parts_sat s e z : (Z.of_N s < 2 ^ 64) -> (z = e \/ (z < -1000 /\ e < -1000) \/ (308 < z /\ 308 < e)) ->
  f64_from_parts 3 (f64_of_N s) z = f64_from_parts 3 (f64_of_N s) e.
Proof.
  intros B [->|[[L1 L2]|[L1 L2]]]; [reflexivity| |].
  - destruct (f64_sig s B). now rewrite !from_parts_far.
  - now rewrite !from_parts_high.
Qed.
Lemma scaled_class_text n x : scaled_class n = NF64 x <->
  (exists v e y x', Z.abs (exponent n) < 2 ^ 31 /\ significand n v e /\ f64 (inject_Z v) y /\ scaled y (e + exponent n) x' /\ x = signed_as n x') \/
  (exists v e, 2 ^ 31 <= Z.abs (exponent n) /\ significand n v e /\ (v = 0 \/ exponent n < 0) /\ x = signed_as n (FZero false)).
Proof.
  destruct (parts_total n) as (s & e & P & B).
  assert (U : forall v e', significand n v e' <-> v = Z.of_N s /\ e' = e).
  { intros v e'. rewrite parts_significand, P. split.
    - intros (s' & -> & [= -> ->] & _). auto.
    - intros [-> ->]. exists s. auto. }
  assert (Q : forall z, z = e + exponent n \/ (z < -1000 /\ e + exponent n < -1000) \/ (308 < z /\ 308 < e + exponent n) ->
    match f64_from_parts 3 (f64_of_N s) z with Some x => NF64 (signed_as n x) | None => NRange end = NF64 x <->
    exists x', scaled (f64_of_N s) (e + exponent n) x' /\ x = signed_as n x').
  { intros z Z0. rewrite (from_parts_sat s (e + exponent n) z B Z0). destruct (f64_sig s B) as [Ps Bs]. split.
    - destruct (f64_from_parts 3 (f64_of_N s) (e + exponent n)) as [x'|] eqn:F; [|discriminate]. intros [= <-]. exists x'. split; [|reflexivity].
      now apply (proj1 (from_parts_scaled 3 (f64_of_N s) (e + exponent n) x' (le_n 3) Ps Bs)).
    - intros (x' & S & ->). apply (proj2 (from_parts_scaled 3 (f64_of_N s) (e + exponent n) x' (le_n 3) Ps Bs)) in S. now rewrite S. }
  assert (Q1 : Z.abs (exponent n) < 2 ^ 31 -> (exists x', scaled (f64_of_N s) (e + exponent n) x' /\ x = signed_as n x') <->
    ((exists v e y x', Z.abs (exponent n) < 2 ^ 31 /\ significand n v e /\ f64 (inject_Z v) y /\ scaled y (e + exponent n) x' /\ x = signed_as n x') \/
    (exists v e, 2 ^ 31 <= Z.abs (exponent n) /\ significand n v e /\ (v = 0 \/ exponent n < 0) /\ x = signed_as n (FZero false)))).
  { intros EB. split.
    - intros (x' & S & E). left. exists (Z.of_N s), e, (f64_of_N s), x'. split; [exact EB|]. split; [now apply U|]. split; [now apply f64_N|]. auto.
    - intros [(v & e' & y & x' & _ & S & Y & Sc & E)|(v & e' & X & _)]; [|lia]. apply U in S as [-> ->]. apply f64_N in Y. subst y. eauto. }
  unfold scaled_class. rewrite P. fold (signed_as n). unfold exponent, exponent_value in *. destruct (jexp n) as [[eneg ds]|].
  - pose proof (digits_decimal ds) as D. pose proof (decimal_nonneg ds) as D0. destruct (N.ltb_spec 2147483647 (digits_N ds)) as [H|H].
    + split.
      * intros R. right. exists (Z.of_N s), e. split; [destruct eneg; lia|]. split; [now apply U|].
        destruct (N.eqb_spec s 0) as [->|]; cbn [negb andb] in R; [split; [now left|]; injection R; auto|].
        destruct eneg; cbn [negb] in R; [|discriminate]. split; [right; lia|]. injection R. auto.
      * intros [(v & e' & y & x' & X & _)|(v & e' & _ & S & C & ->)]; [destruct eneg; lia|]. apply U in S as [-> ->].
        destruct (N.eqb_spec s 0) as [->|]; [reflexivity|]. destruct C as [C|C]; [lia|]. destruct eneg; [reflexivity|lia].
    + destruct eneg.
      * rewrite <- Q1 by lia. apply Q. rewrite D. lia.
      * rewrite <- Q1 by lia. apply Q. rewrite D. lia.
  - rewrite <- Q1 by lia. apply Q. left. lia.
Qed.
Theorem classify_float n x : classify n = NF64 x <-> float_text n x.
Proof.
  rewrite classify_cases. pose proof (decimal_nonneg (jint n)) as P.
  destruct (match jfrac n, jexp n with None, None => decimal (jint n) <? 2 ^ 64 | _, _ => false end) eqn:W.
  - assert (W' : jfrac n = None /\ jexp n = None /\ decimal (jint n) < 2 ^ 64).
    { destruct (jfrac n), (jexp n); try discriminate. apply Z.ltb_lt in W. auto. }
    destruct W' as (F & E & L). assert (X0 : exponent n = 0) by (unfold exponent, exponent_value; now rewrite E).
    assert (FT : float_text n x <-> ~ integral n /\ x = signed_as n (f64_of_N (Z.to_N (decimal (jint n))))).
    { split.
      - intros T. destruct T as [x _ _ NI _ N0|v e y x [C|[C|C]]|v e C]; try easy; try lia. split; [exact NI|]. f_equal.
        replace (decimal (jint n)) with (Z.of_N (Z.to_N (decimal (jint n)))) in N0 by lia. now apply f64_N in N0.
      - intros [NI ->]. apply float_text_whole; auto. replace (decimal (jint n)) with (Z.of_N (Z.to_N (decimal (jint n)))) at 1 by lia. now apply f64_N. }
    rewrite FT. unfold integral, signed_as. rewrite F, E. destruct (jneg n).
    + destruct (N.eqb_spec (Z.to_N (decimal (jint n))) 0) as [Z0|Z0]; cbn [orb].
      * split; [intros [= <-]; split; [lia|reflexivity]|]. intros [_ ->]. reflexivity.
      * destruct (N.ltb_spec 9223372036854775808 (Z.to_N (decimal (jint n)))) as [H|H].
        -- split; [intros [= <-]; split; [lia|reflexivity]|]. intros [_ ->]. reflexivity.
        -- split; [discriminate|]. intros [NI _]. exfalso. apply NI. repeat split; lia.
    + split; [discriminate|]. intros [NI _]. exfalso. apply NI. repeat split; lia.
  - rewrite scaled_class_text.
    assert (C : jfrac n <> None \/ jexp n <> None \/ 2 ^ 64 <= decimal (jint n)).
    { destruct (jfrac n); [left; discriminate|]. destruct (jexp n); [right; left; discriminate|]. right. right. now apply Z.ltb_ge in W. }
    split.
    + intros [(v & e & y & x' & H1 & H2 & H3 & H4 & ->)|(v & e & H1 & H2 & H3 & ->)].
      * now apply (float_text_scaled n v e y x').
      * now apply (float_text_tiny n v e).
    + intros T. destruct T as [x F E _ L _|v e y x' _ H1 H2 H3 H4|v e H1 H2 H3].
      * exfalso. destruct C as [C|[C|C]]; easy || lia.
      * left. exists v, e, y, x'. auto.
      * right. exists v, e. auto.
Qed.

(** ** Casts *)
Lemma scaled_plain y e x : scaled y e x -> plain y -> (magnitude y <= p2 64)%Q -> plain x.
Proof.
  induction 1 as [y e p x E P X NI|y e p x E P X|e E|y e p y' x E NZ P Y' S IH]; intros Py B.
  - now destruct (nearest_cases _ _ _ X).
  - destruct (nearest_cases _ _ _ X) as [|I]; [assumption|exfalso].
    destruct (pow10_finite (- e) ltac:(lia)) as (m & ex & Ep & m0). destruct (pow_le (- e) ltac:(lia)) as [P1 _].
    assert (M1 : member F64 (2 ^ 52) (-52)). { split; [reflexivity|]. split; [cbn; lia|]. left. apply N.leb_le. reflexivity. }
    assert (S1 : (binary (2 ^ 52) (-52) == 1)%Q) by reflexivity. apply pow10_f64 in P as P'; [|lia]. subst p.
    destruct (nearest_ge F64 false _ _ _ _ good_F64 P M1 ltac:(lra)) as [G|G]; [|congruence].
    assert (Y0 : (0 <= magnitude y)%Q). { destruct Py as [->|(m1 & e1 & -> & H1)]; cbn [magnitude]; [lra|]. pose proof (size_pos m1 e1 H1). lra. }
    assert (M : member F64 (2 ^ 52) 12). { split; [reflexivity|]. split; [cbn; lia|]. left. apply N.leb_le. reflexivity. }
    assert (S : (binary (2 ^ 52) 12 == p2 64)%Q). { rewrite size_p2, p2_N, <- p2_add. reflexivity. }
    rewrite S1 in G. set (pp := magnitude (pow10 (- e))) in *. pose proof (p2_pos 64) as p64.
    refine (proj2 (nearest_le F64 false _ _ _ _ good_F64 X M _ _) I).
    + apply Qle_shift_div_l; lra.
    + rewrite S. apply Qle_shift_div_r; [lra|]. nra.
  - now left.
  - apply (proj1 (pow10_f64 308 p ltac:(lia))) in P. subst p. destruct (fdiv308 y Py B) as (y1 & D & P1 & N1 & B1 & _).
    destruct pow308 as (m & ex & E8 & m8 & _). apply fdiv_nearest in Y'; [|assumption|eauto]. rewrite <- POW10_is, D in Y'. subst y'.
    apply IH; [assumption|]. pose proof p2_950. lra.
Qed.
(** a number is finite, with its sign *)
Lemma float_text_finite n y : float_text n y -> exists x, plain x /\ y = signed_as n x.
Proof.
  intros T. pose proof (decimal_nonneg (jint n)) as P. destruct T as [x F E _ L N0|v e y x _ _ S Y Sc|v e _ _ _].
  - exists x. split; [|reflexivity]. replace (decimal (jint n)) with (Z.of_N (Z.to_N (decimal (jint n)))) in N0 by lia. apply f64_N in N0. subst x.
    apply f64_sig. lia.
  - exists x. split; [|reflexivity]. apply parts_significand in S as (s & -> & _ & B). apply f64_N in Y. subst y. destruct (f64_sig s B). now apply scaled_plain in Sc.
  - exists (FZero false). split; [now left|reflexivity].
Qed.
Definition finite (y : flt) : Prop := match y with FZero _ => True | FFin _ m _ => (0 < m)%N | _ => False end.
Lemma signed_finite n x : plain x -> finite (signed_as n x).
Proof. unfold signed_as. intros [->|(m & e & -> & H)]; destruct (jneg n); cbn; auto. Qed.
Lemma classify_finite n y : classify n = NF64 y -> finite y.
Proof. intros C. apply classify_float, float_text_finite in C as (x & P & ->). now apply signed_finite. Qed.
Lemma to_f32_cast y x : finite y -> to_f32 y x <-> x = f32_of_f64 y.
Proof.
  unfold to_f32. destruct y as [|s|s|s m e]; cbn [finite]; try easy; intros H; cbn [negative magnitude f32_of_f64].
  - assert (Z0 : (0 == rat 0 1)%Q) by reflexivity. rewrite Z0. rewrite nearest_iff by (try exact wide_F32; reflexivity). reflexivity.
  - destruct (ratio_of m e) as [P Q] eqn:R. apply ratio_of_size in R as [Q0 R]. rewrite <- R. now rewrite nearest_iff by (try exact wide_F32; assumption).
Qed.
Lemma to_i32_cast y z : finite y -> to_i32 y z <-> z = i32_of_flt y.
Proof.
  unfold to_i32, whole_part.
  assert (U : forall q t t', (inject_Z t <= q < inject_Z (t + 1))%Q -> (inject_Z t' <= q < inject_Z (t' + 1))%Q -> t = t').
  { intros q t t' [A B] [C D]. assert (t < t' + 1) by (rewrite Zlt_Qlt; lra). assert (t' < t + 1) by (rewrite Zlt_Qlt; lra). lia. }
  destruct y as [|s|s|s m e]; cbn [finite]; try easy; intros H; cbn [negative magnitude i32_of_flt].
  - split.
    + intros (t & T & ->). assert (t = 0) as -> by (apply (U 0%Q); [exact T|split; [apply Qle_refl|reflexivity]]). destruct s; reflexivity.
    + intros ->. exists 0. split; [split; [apply Qle_refl|reflexivity]|]. destruct s; reflexivity.
  - destruct (ratio_of m e) as [P Q] eqn:R. apply ratio_of_size in R as [Q0 R].
    assert (T : (inject_Z (Z.of_N (P / Q)) <= binary m e < inject_Z (Z.of_N (P / Q) + 1))%Q).
    { pose proof (N.div_mod P Q ltac:(lia)) as DM. pose proof (N.mod_lt P Q ltac:(lia)) as ML. rewrite <- R. split.
      - change (inject_Z (Z.of_N (P / Q))) with (qN (P / Q)). apply rat_le; [assumption|]. rewrite <- qN_mul. apply (proj1 (qN_le _ _)). nia.
      - replace (Z.of_N (P / Q) + 1) with (Z.of_N (P / Q + 1)) by lia. change (inject_Z (Z.of_N (P / Q + 1))) with (qN (P / Q + 1)).
        apply rat_lt; [assumption|]. rewrite <- qN_mul. apply (proj1 (qN_lt _ _)). nia. }
    split.
    + intros (t & T' & ->). rewrite (U _ _ _ T' T). reflexivity.
    + intros ->. exists (Z.of_N (P / Q)). split; [exact T|]. reflexivity.
Qed.
Lemma f32_of_N v x : nearest F32 false (inject_Z (Z.of_N v)) x <-> x = round_ratio F32 false v 1.
Proof. change (inject_Z (Z.of_N v)) with (qN v). rewrite <- rat_1. now rewrite nearest_iff by (try exact wide_F32; reflexivity). Qed.
Lemma nearest_neg f neg q x : nearest f neg q x <-> nearest f (negb neg) q (flt_neg x).
Proof.
  assert (K : forall neg x, nearest f neg q x -> nearest f (negb neg) q (flt_neg x)).
  { clear. intros neg x N0. destruct N0 as [m e M L H1 H2|L].
    - replace (flt_neg (float neg m e)) with (float (negb neg) m e) by (unfold float; destruct (m =? 0)%N; reflexivity). now apply nearest_finite.
    - now apply nearest_infinite. }
  split; [apply K|]. intros N0. apply K in N0. rewrite negb_involutive in N0. assert (flt_neg (flt_neg x) = x) as <-; [|exact N0].
  destruct x; cbn; rewrite ?negb_involutive; reflexivity.
Qed.
