(** The rounding of the model is rounding to nearest, and serde_json's numbers are as in [SpecNumber]. *)
From Verif Require Import Base Dec Flt FltProofs FltCanon FltQ Json SpecNumber.
From Coq Require Import ZifyNat ZifyN ZifyBool QArith Qabs Qpower Qfield Lqa.
Local Open Scope Q_scope.

Lemma size_p2 m e : binary m e = qN m * p2 e.
Proof. reflexivity. Qed.
Lemma qN_S m : qN (m + 1) == qN m + 1.
Proof. rewrite qN_add. reflexivity. Qed.
Lemma p2_S e : p2 (e + 1) == 2 * p2 e.
Proof. rewrite (p2_half (e + 1)). now replace (e + 1 - 1)%Z with e by lia. Qed.
(** m * 2^e' as a multiple of 2^e *)
Lemma size_shift m e e' : (e <= e')%Z -> binary m e' == binary (m * 2 ^ Z.to_N (e' - e)) e.
Proof.
  intros L. rewrite !size_p2, qN_mul, p2_N. replace (Z.of_N (Z.to_N (e' - e))) with (e' - e)%Z by lia.
  rewrite <- Qmult_assoc, <- p2_add. now replace (e' - e + e)%Z with e' by lia.
Qed.
Lemma size_lt m m' e : binary m e < binary m' e <-> (m < m')%N.
Proof.
  rewrite !size_p2, qN_lt. pose proof (p2_pos e). split; intros; [now apply lt_mul_reg with (p2 e)|now apply Qmult_lt_compat_r].
Qed.
Lemma size_le m m' e : binary m e <= binary m' e <-> (m <= m')%N.
Proof.
  rewrite !size_p2, qN_le. pose proof (p2_pos e). split; intros; [now apply le_mul_reg with (p2 e)|apply Qmult_le_compat_r; lra].
Qed.
Lemma top_size f e : good_format f -> binary (2 ^ Z.to_N (prec f)) e == binary (2 ^ Z.to_N (prec f - 1)) (e + 1).
Proof. intros G. rewrite !size_p2, pow_prec, qN_mul, p2_S by auto. change (qN 2) with 2. ring. Qed.

(** the next larger and the next smaller magnitude *)
Lemma gap_up f m e m' e' : good_format f -> member f m e -> member f m' e' -> binary m e < binary m' e' -> binary (m + 1) e <= binary m' e'.
Proof.
  intros G (A1 & A2 & A3) (B1 & B2 & B3) L. destruct (Z.le_gt_cases e e') as [LE|LT].
  - rewrite (size_shift m' e e') in * by assumption. apply size_le. apply size_lt in L. lia.
  - exfalso. assert (H : binary m' e' < binary m e); [|lra]. destruct A3 as [A3|]; [|lia].
    rewrite (size_shift m e' e) by lia. apply size_lt.
    apply N.lt_le_trans with (1 := B1). rewrite pow_prec by assumption.
    assert (2 <= 2 ^ Z.to_N (e - e'))%N. { change 2%N with (2 ^ 1)%N at 1. apply N.pow_le_mono_r; lia. } nia.
Qed.
(** [bottom]: at the foot of a binade, where the spacing below is half that above *)
Definition bottom (f : fformat) (m : N) (e : Z) : bool := (m =? 2 ^ Z.to_N (prec f - 1))%N && negb (e =? emin f)%Z.
Definition below (f : fformat) (m : N) (e : Z) : Q :=
  if bottom f m e then (2 * qN m - 1) * p2 (e - 1) else (qN m - 1) * p2 e.
Lemma low_end_mid f m e : low_end f m e == (1 # 2) * (below f m e + binary m e).
Proof.
  unfold low_end, below. fold (bottom f m e). rewrite size_p2. pose proof (p2_pred e) as P. pose proof (p2_half e) as H.
  destruct (bottom f m e); rewrite ?H, ?P; ring.
Qed.
Lemma high_end_mid m e : high_end m e == (1 # 2) * (binary m e + binary (m + 1) e).
Proof. unfold high_end. rewrite !size_p2, qN_S, (p2_half e). ring. Qed.
Lemma qN_pred m : (0 < m)%N -> qN (m - 1) == qN m - 1.
Proof. intros H. assert (E : (m - 1 + 1 = m)%N) by lia. rewrite <- E at 2. rewrite qN_S. ring. Qed.
Lemma gap_down f m e m' e' : good_format f -> member f m e -> member f m' e' -> binary m' e' < binary m e -> binary m' e' <= below f m e.
Proof.
  intros G (A1 & A2 & A3) (B1 & B2 & B3) L. pose proof (p2_pos (e - 1)) as ph. pose proof (p2_half e) as H.
  assert (m0 : (0 < m)%N). { destruct (N.eq_dec m 0) as [->|]; [exfalso|lia]. rewrite !size_p2 in L. change (qN 0) with 0 in L.
    pose proof (p2_pos e'). pose proof (qN_nonneg m'). nra. }
  destruct (Z.le_gt_cases e e') as [LE|LT].
  - rewrite (size_shift m' e e') in * by assumption. apply size_lt in L.
    apply Qle_trans with (binary (m - 1) e); [apply size_le; lia|]. rewrite size_p2, qN_pred by lia. unfold below.
    destruct (bottom f m e); [|lra]. rewrite H. nra.
  - destruct A3 as [A3|]; [|lia]. set (T := (2 ^ Z.to_N (prec f))%N) in *.
    assert (U : binary m' e' <= binary (T - 1) (e - 1)).
    { apply Qle_trans with (binary (T - 1) e'); [apply size_le; lia|]. rewrite !size_p2. pose proof (p2_le e' (e - 1) ltac:(lia)).
      pose proof (qN_nonneg (T - 1)). nra. }
    assert (T0 : (0 < T)%N) by (apply N.neq_0_lt_0, N.pow_nonzero; discriminate).
    assert (PT : qN T == 2 * qN (2 ^ Z.to_N (prec f - 1))) by (unfold T; rewrite pow_prec, qN_mul by auto; reflexivity).
    apply Qle_trans with (1 := U). rewrite size_p2, qN_pred, PT by lia. unfold below. destruct (bottom f m e) eqn:Bo.
    + apply andb_true_iff in Bo as [Bo _]. apply N.eqb_eq in Bo. rewrite Bo. lra.
    + assert (M : (2 ^ Z.to_N (prec f - 1) + 1 <= m)%N). { unfold bottom in Bo. apply andb_false_iff in Bo as [Bo|Bo]; [apply N.eqb_neq in Bo; lia|].
        apply negb_false_iff, Z.eqb_eq in Bo. lia. }
      apply qN_le in M. rewrite qN_S in M. rewrite H. nra.
Qed.
Lemma below_lt f m e : (0 < m)%N -> below f m e < binary m e.
Proof.
  intros _. unfold below. rewrite size_p2. pose proof (p2_pos (e - 1)) as ph. pose proof (p2_half e) as H. destruct (bottom f m e); rewrite ?H; nra.
Qed.
Lemma above_gt m e : binary m e < binary (m + 1) e.
Proof. apply size_lt. lia. Qed.

(** distances *)
Lemma dist_above q v v' w : v < v' -> w <= v' -> v < w -> q <= (1 # 2) * (v + w) -> Qabs (q - v) <= Qabs (q - v') /\ (Qabs (q - v) == Qabs (q - v') -> q == (1 # 2) * (v + w)).
Proof.
  intros A B C D. assert (q - v' < 0) by lra. rewrite (Qabs_neg (q - v')) by lra.
  destruct (Qlt_le_dec (q - v) 0) as [H'|H']; [rewrite Qabs_neg by lra|rewrite Qabs_pos by lra]; split; intros; lra.
Qed.
Lemma dist_below q v v' w : v' < v -> v' <= w -> w < v -> (1 # 2) * (w + v) <= q -> Qabs (q - v) <= Qabs (q - v') /\ (Qabs (q - v) == Qabs (q - v') -> q == (1 # 2) * (w + v)).
Proof.
  intros A B C D. assert (0 < q - v') by lra. rewrite (Qabs_pos (q - v')) by lra.
  destruct (Qlt_le_dec (q - v) 0) as [H'|H']; [rewrite Qabs_neg by lra|rewrite Qabs_pos by lra]; split; intros; lra.
Qed.
Lemma member_inj f m e m' e' : good_format f -> member f m e -> member f m' e' -> binary m e == binary m' e' -> (m', e') = (m, e).
Proof.
  intros G M M' E.
  assert (K : forall m e m' e', member f m e -> member f m' e' -> binary m e == binary m' e' -> (e < e')%Z -> False).
  { clear. intros m e m' e' (A1 & A2 & A3) (B1 & B2 & B3) E L. destruct B3 as [B3|]; [|lia].
    rewrite (size_shift m' e e') in E by lia. rewrite !size_p2 in E. pose proof (p2_pos e) as p. apply Qmult_inj_r in E; [|lra]. apply qN_eq in E.
    assert (2 <= 2 ^ Z.to_N (e' - e))%N. { change 2%N with (2 ^ 1)%N at 1. apply N.pow_le_mono_r; lia. }
    assert ((2 ^ Z.to_N (prec f) <= 2 * 2 ^ Z.to_N (prec f - 1))%N).
    { rewrite <- N.pow_succ_r'. apply N.pow_le_mono_r; lia. } nia. }
  destruct (Z.lt_trichotomy e e') as [L|[L|L]].
  - exfalso. eauto.
  - subst e'. rewrite !size_p2 in E. pose proof (p2_pos e). apply Qmult_inj_r in E; [|lra]. apply qN_eq in E. now subst.
  - exfalso. apply (K m' e' m e); auto. now symmetry.
Qed.

(** ** Intervals and nearest values *)
Lemma high_end_limit f m e : good_format f -> member f m e -> high_end m e <= limit f /\ (N.even m = true -> high_end m e < limit f).
Proof.
  intros G (A1 & A2 & A3). unfold limit. rewrite size_p2. set (T := (2 ^ Z.to_N (prec f))%N) in *.
  assert (T0 : (0 < T)%N) by (apply N.neq_0_lt_0, N.pow_nonzero; discriminate).
  assert (PT : (T = 2 * 2 ^ Z.to_N (prec f - 1))%N) by now apply pow_prec.
  assert (U : high_end m e <= (2 * qN m + 1) * p2 (emax f - 1)).
  { unfold high_end. pose proof (p2_le (e - 1) (emax f - 1) ltac:(lia)). pose proof (qN_nonneg m). nra. }
  pose proof (p2_pos (emax f - 1)) as pp.
  assert (X : qN (2 * T - 1) == 2 * qN T - 1). { rewrite qN_pred, qN_mul by lia. reflexivity. }
  split.
  - apply Qle_trans with (1 := U). rewrite X. assert (M : (m + 1 <= T)%N) by lia. apply qN_le in M. rewrite qN_S in M. nra.
  - intros Ev. apply Qle_lt_trans with (1 := U). rewrite X.
    assert (M : (m + 1 + 1 <= T)%N). { destruct (N.eq_dec (m + 1) T) as [X1|]; [exfalso|lia].
      rewrite PT in X1. assert (E2 : N.even (m + 1) = true) by (rewrite X1, N.even_mul; reflexivity). rewrite N.add_1_r, N.even_succ, <- N.negb_even, Ev in E2. discriminate. }
    apply qN_le in M. rewrite !qN_S in M. nra.
Qed.
Lemma interval_nearest f neg m e q : good_format f -> member f m e -> in_interval f m e q -> nearest f neg q (float neg m e).
Proof.
  intros G M [[I1 I2] I3]. destruct (high_end_limit f m e G M) as [L1 L2].
  assert (K : forall m' e', member f m' e' -> Qabs (q - binary m e) <= Qabs (q - binary m' e') /\
    ((m', e') <> (m, e) -> Qabs (q - binary m e) == Qabs (q - binary m' e') -> N.even m = true)).
  { intros m' e' M'. pose proof (low_end_mid f m e) as LM. pose proof (high_end_mid m e) as HM.
    destruct (Qlt_le_dec (binary m e) (binary m' e')) as [C|C].
    - destruct (dist_above q (binary m e) (binary m' e') (binary (m + 1) e)) as [D1 D2]; auto.
      { now apply (gap_up f). } { apply above_gt. } { lra. }
      split; [assumption|]. intros _ T. apply D2 in T. destruct (N.even m) eqn:Ev; [reflexivity|]. specialize (I3 eq_refl). lra.
    - destruct (Qlt_le_dec (binary m' e') (binary m e)) as [C'|C'].
      + destruct (dist_below q (binary m e) (binary m' e') (below f m e)) as [D1 D2]; auto.
        { now apply gap_down. } { apply below_lt. destruct (N.eq_dec m 0) as [->|]; [exfalso|lia].
          rewrite !size_p2 in C'. change (qN 0) with 0 in C'. pose proof (p2_pos e'). pose proof (qN_nonneg m'). nra. } { lra. }
        split; [assumption|]. intros _ T. apply D2 in T. destruct (N.even m) eqn:Ev; [reflexivity|]. specialize (I3 eq_refl). lra.
      + assert (E : binary m e == binary m' e') by lra. rewrite E. split; [lra|]. intros N0. exfalso. apply N0. now apply (member_inj f). }
  apply nearest_finite; auto.
  - destruct (N.even m) eqn:Ev; [specialize (L2 eq_refl); lra|specialize (I3 eq_refl); lra].
  - intros m' e' M'. now apply K.
  - intros m' e' M' N0. now apply (K m' e').
Qed.
Lemma nearest_interval f m e q : good_format f -> member f m e -> 0 <= q -> q < limit f ->
  (forall m' e', member f m' e' -> Qabs (q - binary m e) <= Qabs (q - binary m' e')) ->
  (forall m' e', member f m' e' -> (m', e') <> (m, e) -> Qabs (q - binary m e) == Qabs (q - binary m' e') -> N.even m = true) ->
  in_interval f m e q.
Proof.
  intros G M Q0 QL H1 H2. pose proof (low_end_mid f m e) as LM. pose proof (high_end_mid m e) as HM.
  assert (T0 : (0 < 2 ^ Z.to_N (prec f))%N) by (apply N.neq_0_lt_0, N.pow_nonzero; discriminate).
  assert (PT : (2 ^ Z.to_N (prec f) = 2 * 2 ^ Z.to_N (prec f - 1))%N) by now apply pow_prec.
  pose proof M as (A1 & A2 & A3). pose proof (above_gt m e) as AG.
  assert (S : (q < high_end m e) \/ exists m' e', member f m' e' /\ (m', e') <> (m, e) /\ binary m' e' == binary (m + 1) e).
  { destruct (N.eq_dec (m + 1) (2 ^ Z.to_N (prec f))) as [E|E].
    - destruct (Z.eq_dec e (emax f)) as [Ee|Ee].
      + left. apply Qlt_le_trans with (1 := QL). unfold limit, high_end. rewrite size_p2, Ee. apply Qmult_le_compat_r; [|pose proof (p2_pos (emax f - 1)); lra].
        rewrite <- E. rewrite qN_pred, qN_mul, qN_S by lia. change (qN 2) with 2. lra.
      + right. exists (2 ^ Z.to_N (prec f - 1))%N, (e + 1)%Z. split; [|split].
        * split; [|split]; [|lia|now left]. lia.
        * intros [= _ X]. lia.
        * rewrite E. symmetry. now apply top_size.
    - right. exists (m + 1)%N, e. split; [|split]; [|intros [= X]; lia|reflexivity]. split; [lia|]. split; [lia|]. destruct A3; [left; lia|now right]. }
  assert (P : (low_end f m e < q) \/ exists m' e', member f m' e' /\ (m', e') <> (m, e) /\ binary m' e' == below f m e).
  { destruct (N.eq_dec m 0) as [->|m0].
    - left. unfold low_end. destruct (_ && _) eqn:B.
      + change (qN 0) with 0. pose proof (p2_pos (e - 2)). lra.
      + change (qN 0) with 0. pose proof (p2_pos (e - 1)). lra.
    - right. unfold below. destruct (bottom f m e) eqn:B.
      + apply andb_true_iff in B as [B1 B2]. apply N.eqb_eq in B1. apply negb_true_iff, Z.eqb_neq in B2.
        exists (2 * m - 1)%N, (e - 1)%Z. split; [|split]; [|intros [= _ X]; lia|].
        * split; [lia|]. split; [lia|]. left. lia.
        * rewrite size_p2, qN_pred, qN_mul by lia. reflexivity.
      + exists (m - 1)%N, e. split; [|split]; [|intros [= X]; lia|].
        * split; [lia|]. split; [lia|]. unfold bottom in B. apply andb_false_iff in B as [B|B]; [apply N.eqb_neq in B; destruct A3; [left; lia|now right]|].
          right. now apply negb_false_iff, Z.eqb_eq in B.
        * rewrite size_p2, qN_pred by lia. reflexivity. }
  assert (HI : q <= high_end m e /\ (N.even m = false -> q < high_end m e)).
  { destruct S as [S|(m' & e' & M' & NE & E)]; [split; intros; lra|]. pose proof (H1 m' e' M') as D. pose proof (H2 m' e' M' NE) as D'.
    rewrite E in D, D'. set (v := binary m e) in *. set (w := binary (m + 1) e) in *. split.
    - destruct (Qlt_le_dec q v); [lra|]. rewrite (Qabs_pos (q - v)) in D by lra. destruct (Qlt_le_dec q w).
      + rewrite (Qabs_neg (q - w)) in D by lra. lra.
      + rewrite (Qabs_pos (q - w)) in D by lra. lra.
    - intros Ev. destruct (Qlt_le_dec q (high_end m e)) as [|X]; [assumption|exfalso]. rewrite Ev in D'. discriminate D'.
      assert (q <= high_end m e). { destruct (Qlt_le_dec q w). + rewrite (Qabs_pos (q - v)), (Qabs_neg (q - w)) in D by lra. lra. + rewrite !Qabs_pos in D by lra. lra. }
      rewrite (Qabs_pos (q - v)), (Qabs_neg (q - w)) by lra. lra. }
  assert (LO : low_end f m e <= q /\ (N.even m = false -> low_end f m e < q)).
  { destruct P as [P|(m' & e' & M' & NE & E)]; [split; intros; lra|]. pose proof (H1 m' e' M') as D. pose proof (H2 m' e' M' NE) as D'.
    rewrite E in D, D'. assert (m0 : (0 < m)%N). { destruct (N.eq_dec m 0) as [->|]; [exfalso|lia]. unfold below in E.
      rewrite size_p2 in E. pose proof (p2_pos e'). pose proof (qN_nonneg m'). pose proof (p2_pos e). pose proof (p2_pos (e - 1)). change (qN 0) with 0 in E.
      destruct (bottom f 0 e); nra. }
    pose proof (below_lt f m e m0) as BL. set (v := binary m e) in *. set (w := below f m e) in *. split.
    - destruct (Qlt_le_dec v q); [lra|]. rewrite (Qabs_neg (q - v)) in D by lra. destruct (Qlt_le_dec q w).
      + rewrite (Qabs_neg (q - w)) in D by lra. lra.
      + rewrite (Qabs_pos (q - w)) in D by lra. lra.
    - intros Ev. destruct (Qlt_le_dec (low_end f m e) q) as [|X]; [assumption|exfalso]. rewrite Ev in D'. discriminate D'.
      assert (low_end f m e <= q). { destruct (Qlt_le_dec q w). + rewrite (Qabs_neg (q - v)), (Qabs_neg (q - w)) in D by lra. lra. + rewrite (Qabs_neg (q - v)), (Qabs_pos (q - w)) in D by lra. lra. }
      rewrite (Qabs_neg (q - v)), (Qabs_pos (q - w)) by lra. lra. }
  destruct HI as [HI1 HI2], LO as [LO1 LO2]. split; [split; assumption|]. intros Ev. split; auto.
Qed.
Lemma canonical_member f neg m e : canonical f (FFin neg m e) = true <-> (0 < m)%N /\ member f m e.
Proof. unfold canonical, member. rewrite !andb_true_iff, orb_true_iff, N.ltb_lt, !N.leb_le, !Z.leb_le, Z.eqb_eq. intuition lia. Qed.
Lemma rat_nonneg P B : 0 <= rat P B.
Proof.
  unfold rat. pose proof (qN_nonneg P). pose proof (qN_nonneg B) as HB. apply Qle_lt_or_eq in HB as [HB|HB].
  - apply Qle_shift_div_l; lra.
  - rewrite <- HB. unfold Qdiv, Qinv. cbn. rewrite Qmult_0_r. lra.
Qed.
Definition zero_member f : (emin f <= emax f)%Z -> member f 0 (emin f).
Proof. intros H. split; [apply N.neq_0_lt_0, N.pow_nonzero; discriminate|]. split; [lia|now right]. Qed.
Definition wide (f : fformat) : Prop := good_format f /\ (emin f <= emax f)%Z.
Lemma wide_F64 : wide F64. Proof. split; [exact good_F64|discriminate]. Qed.
Lemma wide_F32 : wide F32. Proof. split; [exact good_F32|discriminate]. Qed.
Lemma p2_prec_size f e : good_format f -> p2 (e + prec f) == binary (2 ^ Z.to_N (prec f)) e.
Proof. intros G. rewrite top_size by assumption. rewrite size_p2, <- p2_prec_half by assumption. now replace (e + 1 + prec f - 1)%Z with (e + prec f)%Z by lia. Qed.
Lemma limit_le f : good_format f -> limit f <= p2 (emax f + prec f).
Proof.
  intros G. rewrite p2_prec_size by assumption. unfold limit. rewrite !size_p2. assert (T0 : (0 < 2 ^ Z.to_N (prec f))%N) by (apply N.neq_0_lt_0, N.pow_nonzero; discriminate).
  rewrite qN_pred, qN_mul, (p2_half (emax f)) by lia. change (qN 2) with 2. pose proof (p2_pos (emax f - 1)). nra.
Qed.
Lemma low_end_neg f q : 0 <= q -> low_end f 0 (emin f) < q.
Proof. intros H. unfold low_end. rewrite Z.eqb_refl, andb_false_r. change (qN 0) with 0. pose proof (p2_pos (emin f - 1)). lra. Qed.
Lemma finish_zero f neg q e s : finish f neg q e = FZero s -> q = 0%N.
Proof. unfold finish. destruct (N.eqb_spec q 0) as [|H]; [auto|]. destruct (q =? 2 ^ Z.to_N (prec f))%N; destruct (_ <? _)%Z; discriminate. Qed.
Lemma finish_cases f neg q e : finish f neg q e = FZero neg \/ finish f neg q e = FInf neg \/ exists m e', finish f neg q e = FFin neg m e'.
Proof. unfold finish. destruct (q =? 0)%N; [now left|right]. destruct (q =? 2 ^ Z.to_N (prec f))%N; destruct (_ <? _)%Z; eauto. Qed.

Theorem round_nearest f neg P B : wide f -> (0 < B)%N -> nearest f neg (rat P B) (round_ratio f neg P B).
Proof.
  intros [G W] HB. pose proof (rat_nonneg P B) as Q0. destruct (N.eq_dec P 0) as [->|HP].
  { change (round_ratio f neg 0 B) with (float neg 0 (emin f)). assert (Z0 : rat 0 B == 0). { unfold rat. change (qN 0) with 0. field. apply qN_pos in HB. lra. }
    apply interval_nearest; auto; [now apply zero_member|]. split; [|discriminate]. pose proof (low_end_neg f (rat 0 B) Q0). split; [lra|].
    unfold high_end. rewrite Z0. change (qN 0) with 0. pose proof (p2_pos (emin f - 1)). lra. }
  destruct (round_ratio f neg P B) as [|s|s|s m e] eqn:R.
  - exfalso. destruct (round_ratio_rat f neg P B ltac:(lia) HB) as (e & q & E & _). rewrite E in R. destruct (finish_cases f neg q e) as [X|[X|(? & ? & X)]]; congruence.
  - destruct (round_ratio_rat f neg P B ltac:(lia) HB) as (e & q & E & L0 & L1 & L2 & [I1 I2] & I3). rewrite E in R. unfold finish in R.
    destruct (N.eqb_spec q 0); [discriminate|]. destruct (N.eqb_spec q (2 ^ Z.to_N (prec f))) as [Eq|Eq].
    + destruct (Z.ltb_spec (emax f) (e + 1)) as [L|]; [|discriminate]. injection R as <-. apply nearest_infinite.
      destruct (Z.eq_dec e (emax f)) as [->|].
      * unfold limit. rewrite size_p2, <- Eq. rewrite qN_pred, qN_mul by lia. exact I1.
      * apply Qle_trans with (1 := limit_le f G). destruct L1 as [L1|L1]; [lia|]. apply Qle_trans with (2 := L1). apply p2_le. lia.
    + destruct (Z.ltb_spec (emax f) e) as [L|]; [|discriminate]. injection R as <-. apply nearest_infinite.
      apply Qle_trans with (1 := limit_le f G). destruct L1 as [L1|L1]; [lia|]. apply Qle_trans with (2 := L1). apply p2_le. lia.
  - destruct (round_ratio_rat f neg P B ltac:(lia) HB) as (e & q & E & L0 & L1 & L2 & [I1 I2] & I3). rewrite E in R.
    assert (s = neg). { destruct (finish_cases f neg q e) as [X|[X|(? & ? & X)]]; congruence. } subst s.
    apply finish_zero in R. subst q. change (qN 0) with 0 in *.
    assert (e = emin f).
    { destruct L1 as [|L1]; [assumption|exfalso]. unfold good_format in G. pose proof (p2_le (e + 1) (e + prec f - 1) ltac:(lia)) as X. rewrite p2_S, (p2_half e) in X.
      pose proof (p2_pos (e - 1)). lra. }
    subst e. change (FZero neg) with (float neg 0 (emin f)). apply interval_nearest; auto; [now apply zero_member|].
    split; [|discriminate]. pose proof (low_end_neg f (rat P B) Q0). split; [lra|]. unfold high_end. change (qN 0) with 0. lra.
  - assert (s = neg). { destruct (round_ratio_rat f neg P B ltac:(lia) HB) as (e' & q & E & _). rewrite E in R. destruct (finish_cases f neg q e') as [X|[X|(? & ? & X)]]; congruence. } subst s.
    assert (C : canonical f (FFin neg m e) = true). { rewrite <- R. apply round_ratio_canonical; [unfold good_format in G; lia|assumption]. }
    apply canonical_member in C as [m0 M]. pose proof (round_interval f neg P B neg m e G HB R) as I.
    replace (FFin neg m e) with (float neg m e). { now apply interval_nearest. } unfold float. destruct (N.eqb_spec m 0); [lia|reflexivity].
Qed.
Theorem nearest_round f neg P B x : wide f -> (0 < B)%N -> nearest f neg (rat P B) x -> x = round_ratio f neg P B.
Proof.
  intros [G W] HB N0. pose proof (rat_nonneg P B) as Q0. destruct N0 as [m e M L H1 H2|L].
  - pose proof (nearest_interval f m e (rat P B) G M Q0 L H1 H2) as I. unfold float. destruct (N.eqb_spec m 0) as [->|m0].
    + destruct M as (M1 & M2 & M3). destruct I as [[_ I] _]. unfold high_end in I. change (qN 0) with 0 in I.
      assert (e = emin f) as ->. { destruct M3 as [M3|]; [exfalso|assumption]. apply N.le_0_r, N.pow_nonzero in M3; [easy|discriminate]. }
      destruct (N.eq_dec P 0) as [->|HP]; [reflexivity|].
      destruct (round_ratio_rat f neg P B ltac:(lia) HB) as (e & q & E & L0 & L1 & L2 & [I1 I2] & I3). rewrite E.
      assert (e = emin f) as ->.
      { destruct L1 as [|L1]; [assumption|exfalso]. unfold good_format in G. pose proof (p2_le (emin f) (e + prec f - 1) ltac:(lia)) as X.
        rewrite (p2_half (emin f)) in X. pose proof (p2_pos (emin f - 1)). lra. }
      pose proof (p2_pos (emin f - 1)) as pp. destruct (N.eq_dec q 0) as [->|q0]; [reflexivity|exfalso].
      destruct (N.eq_dec q 1) as [->|q1]. { specialize (I3 eq_refl) as [I3 _]. change (qN 1) with 1 in I3. lra. }
      assert (q2 : (2 <= q)%N) by lia. apply qN_le in q2. change (qN 2) with 2 in q2. nra.
    + symmetry. apply interval_round; auto. apply canonical_member. split; [lia|assumption].
  - pose proof (round_nearest f neg P B (conj G W) HB) as R. inversion R as [m e M L' _ _ E|L' E]; [exfalso; lra|reflexivity].
Qed.
Theorem nearest_iff f neg P B x : wide f -> (0 < B)%N -> nearest f neg (rat P B) x <-> x = round_ratio f neg P B.
Proof. intros W HB. split; [now apply nearest_round|]. intros ->. now apply round_nearest. Qed.
#[export] Instance nearest_Qeq f neg : Proper (Qeq ==> eq ==> iff) (nearest f neg).
Proof.
  intros q q' E x x' <-. assert (K : forall q q', q == q' -> nearest f neg q x -> nearest f neg q' x).
  { clear. intros q q' E N0. destruct N0 as [m e M L H1 H2|L]; [|apply nearest_infinite; now rewrite <- E].
    apply nearest_finite; auto; [now rewrite <- E| |].
    - intros m' e' M'. rewrite <- E. now apply H1.
    - intros m' e' M' N0. rewrite <- E. now apply H2. }
  split; apply K; [assumption|now symmetry].
Qed.
