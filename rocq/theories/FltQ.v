(** The rounding of [Flt.v] as a statement about rational numbers: [round_ratio] returns the value
    whose rounding interval contains the quotient, and its relative error is at most 2^-prec. *)
From Verif Require Import Base Dec Flt FltProofs FltCanon.
From Coq Require Import ZifyNat ZifyN ZifyBool QArith Qpower Qfield Lqa.
Local Open Scope Q_scope.

Definition qN (n : N) : Q := inject_Z (Z.of_N n).
Definition p2 (e : Z) : Q := 2 ^ e.
Definition rat (P B : N) : Q := qN P / qN B.

Lemma p2_pos e : 0 < p2 e.
Proof. unfold p2. now apply Qpower_0_lt. Qed.
Lemma p2_add a b : p2 (a + b) == p2 a * p2 b.
Proof. unfold p2. apply Qpower_plus. discriminate. Qed.
Lemma p2_half e : p2 e == 2 * p2 (e - 1).
Proof.
  replace e with (1 + (e - 1))%Z at 1 by lia. rewrite p2_add. reflexivity.
Qed.
Lemma p2_le a b : (a <= b)%Z -> p2 a <= p2 b.
Proof. intros H. now apply Qpower_le_compat_l. Qed.
Lemma p2_lt_inv a b : p2 a < p2 b -> (a < b)%Z.
Proof. intros H. now apply Qpower_lt_compat_l_inv with (q := 2). Qed.
Lemma p2_N k : qN (2 ^ k) == p2 (Z.of_N k).
Proof. unfold qN, p2. rewrite N2Z.inj_pow. rewrite Zpower_Qpower by lia. reflexivity. Qed.
Lemma p2_opp e : p2 (- e) * p2 e == 1.
Proof. rewrite <- p2_add. replace (- e + e)%Z with 0%Z by lia. reflexivity. Qed.

Lemma qN_mul a b : qN (a * b) == qN a * qN b.
Proof. unfold qN. rewrite N2Z.inj_mul. now rewrite inject_Z_mult. Qed.
Lemma qN_add a b : qN (a + b) == qN a + qN b.
Proof. unfold qN. rewrite N2Z.inj_add. now rewrite inject_Z_plus. Qed.
Lemma qN_le a b : (a <= b)%N <-> qN a <= qN b.
Proof. unfold qN. rewrite <- Zle_Qle. lia. Qed.
Lemma qN_lt a b : (a < b)%N <-> qN a < qN b.
Proof. unfold qN. rewrite <- Zlt_Qlt. lia. Qed.
Lemma qN_eq a b : a = b <-> qN a == qN b.
Proof. unfold qN. rewrite inject_Z_injective. lia. Qed.
Lemma qN_pos a : (0 < a)%N -> 0 < qN a.
Proof. intros H. change 0 with (qN 0). now apply qN_lt. Qed.
Lemma qN_nonneg a : 0 <= qN a.
Proof. change 0 with (qN 0). apply qN_le. lia. Qed.

Lemma rat_le P B x : (0 < B)%N -> (x <= rat P B <-> x * qN B <= qN P).
Proof.
  intros H. apply qN_pos in H. unfold rat. split; intros L.
  - assert (qN P == (qN P / qN B) * qN B) as -> by (field; lra). apply Qmult_le_compat_r; lra.
  - apply Qle_shift_div_l; auto.
Qed.
Lemma rat_lt P B x : (0 < B)%N -> (rat P B < x <-> qN P < x * qN B).
Proof.
  intros H. pose proof (rat_le P B x H). split; intros L.
  - apply Qnot_le_lt. intros C. apply H0 in C. lra.
  - apply Qnot_le_lt. intros C. apply H0 in C. lra.
Qed.
Lemma rat_ge P B x : (0 < B)%N -> (rat P B <= x <-> qN P <= x * qN B).
Proof.
  intros H. apply qN_pos in H. unfold rat. split; intros L.
  - assert (qN P == (qN P / qN B) * qN B) as -> by (field; lra). apply Qmult_le_compat_r; lra.
  - apply Qle_shift_div_r; auto.
Qed.
Lemma rat_pos P B : (0 < P)%N -> (0 < B)%N -> 0 < rat P B.
Proof. intros HA HB. unfold rat. apply Qlt_shift_div_l; apply qN_pos in HB; auto. apply qN_pos in HA. lra. Qed.

Lemma scale2_rat P B e n d : scale2 P B e = (n, d) -> (0 < B)%N -> (0 < d)%N /\ rat P B == rat n d * p2 e.
Proof.
  unfold scale2. intros S HQ. pose proof (qN_pos B HQ) as qQ. destruct (Z.leb_spec 0 e); injection S as <- <-.
  - split. { apply N.mul_pos_pos; auto. apply pow2_pos. }
    unfold rat. rewrite qN_mul, p2_N. replace (Z.of_N (Z.to_N e)) with e by lia. pose proof (p2_pos e). field. split; lra.
  - split; auto. unfold rat. rewrite qN_mul, p2_N. replace (Z.of_N (Z.to_N (- e))) with (- e)%Z by lia.
    pose proof (p2_opp e). assert (E : qN P / qN B == qN P * (p2 (- e) * p2 e) / qN B) by (rewrite H0; field; lra).
    rewrite E. field. lra.
Qed.
Lemma ge2_rat P B e : (0 < B)%N -> ge2 P B e = true <-> p2 e <= rat P B.
Proof.
  intros HQ. unfold ge2. destruct (scale2 P B e) as [n d] eqn:S. destruct (scale2_rat P B e n d S HQ) as [Hd R].
  rewrite R, N.leb_le. pose proof (p2_pos e) as pp. split; intros L.
  - assert (1 <= rat n d). { apply rat_le; auto. rewrite Qmult_1_l. now apply qN_le. }
    nra.
  - apply qN_le. rewrite <- (Qmult_1_l (qN d)). apply rat_le; auto. nra.
Qed.
Lemma fl2_rat P B : (0 < P)%N -> (0 < B)%N -> p2 (fl2 P B) <= rat P B < p2 (fl2 P B + 1).
Proof.
  intros HP HQ. destruct (fl2_spec P B HP HQ) as [G1 G2]. split; [now apply ge2_rat|].
  apply Qnot_le_lt. intros C. apply ge2_rat in C; auto. congruence.
Qed.

(** what [round_ratio] computes: the scale [e], the rounded quotient [q] *)
Definition finish (f : fformat) (neg : bool) (q : N) (e : Z) : flt :=
  if (q =? 0)%N then FZero neg
  else
    let '(q2, e2) := if (q =? 2 ^ Z.to_N (prec f))%N then ((2 ^ Z.to_N (prec f - 1))%N, (e + 1)%Z) else (q, e) in
    if (emax f <? e2)%Z then FInf neg else FFin neg q2 e2.
Lemma round_ratio_rat f neg P B : (0 < P)%N -> (0 < B)%N -> exists e q,
  round_ratio f neg P B = finish f neg q e /\ (emin f <= e)%Z /\
  (e = emin f \/ p2 (e + prec f - 1) <= rat P B) /\ rat P B < p2 (e + prec f) /\
  (2 * qN q - 1) * p2 (e - 1) <= rat P B <= (2 * qN q + 1) * p2 (e - 1) /\
  (N.even q = false -> (2 * qN q - 1) * p2 (e - 1) < rat P B < (2 * qN q + 1) * p2 (e - 1)).
Proof.
  intros HP HQ. destruct (fl2_rat P B HP HQ) as [F1 F2].
  set (e := Z.max (fl2 P B - (prec f - 1)) (emin f)). exists e.
  unfold round_ratio. destruct (N.eqb_spec P 0) as [|_]; [lia|]. fold e.
  destruct (scale2 P B e) as [n d] eqn:S. destruct (scale2_rat P B e n d S HQ) as [Hd R]. cbv zeta.
  set (q := (n / d)%N). set (r := (n mod d)%N).
  pose proof (N.div_mod n d ltac:(lia)) as DM. pose proof (N.mod_lt n d ltac:(lia)) as ML. fold q r in DM, ML.
  eexists. split; [reflexivity|].
  assert (R2 : rat P B == 2 * rat n d * p2 (e - 1)). { rewrite R, (p2_half e). ring. }
  split; [lia|]. split.
  { destruct (Z.max_spec (fl2 P B - (prec f - 1)) (emin f)) as [[H1 H2]|[H1 H2]]; [now left|right].
    replace (e + prec f - 1)%Z with (fl2 P B) by lia. exact F1. }
  split. { apply Qlt_le_trans with (1 := F2). apply p2_le. lia. }
  pose proof (p2_pos (e - 1)) as pp. set (h := p2 (e - 1)) in *. set (x := rat n d) in *.
  assert (X : x * qN d == qN d * qN q + qN r).
  { unfold x, rat. rewrite DM at 1. rewrite qN_add, qN_mul. apply qN_pos in Hd. field. lra. }
  apply qN_pos in Hd as Hd'. pose proof (qN_nonneg r) as r0. apply qN_lt in ML as ML'.
  assert (G : forall q', (2 * qN q' - 1) * qN d <= 2 * (qN d * qN q + qN r) <= (2 * qN q' + 1) * qN d ->
    (2 * qN q' - 1) * h <= rat P B <= (2 * qN q' + 1) * h).
  { intros q' G. rewrite R2. rewrite <- X in G. split; apply Qmult_le_compat_r; try lra.
    - apply Qmult_lt_0_le_reg_r with (qN d); lra.
    - apply Qmult_lt_0_le_reg_r with (qN d); lra. }
  assert (G' : forall q', (2 * qN q' - 1) * qN d < 2 * (qN d * qN q + qN r) < (2 * qN q' + 1) * qN d ->
    (2 * qN q' - 1) * h < rat P B < (2 * qN q' + 1) * h).
  { intros q' G'. rewrite R2. rewrite <- X in G'. split; apply Qmult_lt_compat_r; try lra.
    - apply Qmult_lt_r with (qN d); lra.
    - apply Qmult_lt_r with (qN d); lra. }
  assert (one : qN 1 == 1) by reflexivity. assert (two : qN 2 == 2) by reflexivity.
  destruct (N.compare_spec (2 * r) d) as [C|C|C].
  - apply qN_eq in C. rewrite qN_mul, two in C. destruct (N.even q) eqn:Ev.
    + split; [apply G|congruence]. lra.
    + split; [apply G|]; rewrite ?qN_add, ?one; [lra|]. intros Ev2. rewrite N.add_1_r, N.even_succ, <- N.negb_even, Ev in Ev2. discriminate.
  - apply qN_lt in C. rewrite qN_mul, two in C. split; [apply G|intros _; apply G']; lra.
  - apply qN_lt in C. rewrite qN_mul, two in C. split; [apply G|intros _; apply G']; rewrite ?qN_add, ?one; lra.
Qed.

(** the rounding interval of [m * 2^e] *)
Definition low_end (f : fformat) (m : N) (e : Z) : Q :=
  if (m =? 2 ^ Z.to_N (prec f - 1))%N && negb (e =? emin f)%Z then (4 * qN m - 1) * p2 (e - 2) else (2 * qN m - 1) * p2 (e - 1).
Definition high_end (m : N) (e : Z) : Q := (2 * qN m + 1) * p2 (e - 1).
Definition in_interval (f : fformat) (m : N) (e : Z) (r : Q) : Prop :=
  low_end f m e <= r <= high_end m e /\ (N.even m = false -> low_end f m e < r < high_end m e).

Lemma p2_pred e : p2 (e - 1) == 2 * p2 (e - 2).
Proof. rewrite (p2_half (e - 1)). now replace (e - 1 - 1)%Z with (e - 2)%Z by lia. Qed.
Lemma p2_prec_half f e : good_format f -> p2 (e + prec f - 1) == qN (2 ^ Z.to_N (prec f - 1)) * p2 e.
Proof.
  intros G. unfold good_format in G. rewrite p2_N. replace (Z.of_N (Z.to_N (prec f - 1))) with (prec f - 1)%Z by lia.
  rewrite <- p2_add. now replace (prec f - 1 + e)%Z with (e + prec f - 1)%Z by lia.
Qed.
Lemma pow_prec f : good_format f -> (2 ^ Z.to_N (prec f) = 2 * 2 ^ Z.to_N (prec f - 1))%N.
Proof.
  intros G. unfold good_format in G. rewrite <- N.pow_succ_r'. f_equal. lia.
Qed.
Lemma even_half f : good_format f -> N.even (2 ^ Z.to_N (prec f - 1)) = true.
Proof.
  intros G. unfold good_format in G. rewrite N.even_pow by lia. reflexivity.
Qed.

Lemma round_interval f neg P B s m e : good_format f -> (0 < B)%N -> round_ratio f neg P B = FFin s m e -> in_interval f m e (rat P B).
Proof.
  intros G HB R. destruct (N.eq_dec P 0) as [->|HP]. { unfold round_ratio in R. discriminate. }
  destruct (round_ratio_rat f neg P B ltac:(lia) HB) as (e0 & q & E & L0 & L1 & L2 & [I1 I2] & I3). rewrite E in R. clear E.
  unfold finish in R. destruct (N.eqb_spec q 0) as [|Hq]; [discriminate|].
  set (r := rat P B) in *. pose proof (p2_pos (e0 - 1)) as pp. pose proof (pow_prec f G) as PP.
  destruct (N.eqb_spec q (2 ^ Z.to_N (prec f))) as [E|E].
  - destruct (Z.ltb_spec (emax f) (e0 + 1)); [discriminate|]. injection R as -> <- <-.
    rewrite PP in E. set (m := (2 ^ Z.to_N (prec f - 1))%N) in *.
    assert (Eq : qN q == 2 * qN m) by (rewrite E, qN_mul; reflexivity).
    unfold in_interval. split; [|pose proof (even_half f G) as X; fold m in X; rewrite X; discriminate].
    unfold low_end, high_end. fold m. rewrite N.eqb_refl. destruct (Z.eqb_spec (e0 + 1) (emin f)); [lia|]. cbn [negb andb].
    replace (e0 + 1 - 2)%Z with (e0 - 1)%Z by lia. replace (e0 + 1 - 1)%Z with e0 by lia. rewrite (p2_half e0).
    rewrite Eq in I1, I2. split; [lra|]. nra.
  - destruct (Z.ltb_spec (emax f) e0); [discriminate|]. injection R as -> <- <-.
    assert (K : low_end f q e0 == (2 * qN q - 1) * p2 (e0 - 1) \/ low_end f q e0 < r).
    { unfold low_end. destruct (N.eqb_spec q (2 ^ Z.to_N (prec f - 1))) as [Em|Em]; [|left; reflexivity].
      destruct (Z.eqb_spec e0 (emin f)) as [Ee|Ee]; [left; reflexivity|]. right. cbn [negb andb].
      destruct L1 as [|L1]; [contradiction|]. rewrite p2_prec_half, <- Em in L1 by auto.
      apply Qlt_le_trans with (2 := L1). rewrite (p2_half e0), (p2_pred e0). pose proof (p2_pos (e0 - 2)). nra. }
    unfold in_interval, high_end. split; [split; auto; destruct K as [K|K]; [now rewrite K|lra]|].
    intros Ho. apply I3 in Ho. split; [|tauto]. destruct K as [K|K]; [now rewrite K|auto].
Qed.

Lemma lt_mul_reg a b h : 0 < h -> a * h < b * h -> a < b.
Proof. intros H L. now apply Qmult_lt_r in L. Qed.
Lemma le_mul_reg a b h : 0 < h -> a * h <= b * h -> a <= b.
Proof. intros H L. now apply Qmult_lt_0_le_reg_r in L. Qed.

Lemma interval_round f neg P B m e : good_format f -> (0 < B)%N -> canonical f (FFin neg m e) = true ->
  in_interval f m e (rat P B) -> round_ratio f neg P B = FFin neg m e.
Proof.
  intros G HB C I. cbn [canonical] in C. rewrite !andb_true_iff, orb_true_iff, N.ltb_lt, !N.leb_le, !Z.leb_le, Z.eqb_eq in C.
  destruct C as ((((C1 & C2) & C3) & C4) & C5).
  assert (m1 : 1 <= qN m) by (change 1 with (qN 1); now apply qN_le).
  pose proof (p2_pos (e - 2)) as pp2. pose proof (p2_pred e) as Pp. pose proof (p2_half e) as Ph.
  set (h := p2 (e - 2)) in *. set (u := (2 ^ Z.to_N (prec f - 1))%N) in *.
  assert (LL : (2 * qN m - 1) * p2 (e - 1) <= low_end f m e).
  { unfold low_end. destruct (_ && _); [|lra]. fold h. rewrite Pp. nra. }
  destruct I as [[I1 I2] I3].
  assert (HP : (0 < P)%N).
  { destruct (N.eq_dec P 0) as [->|]; [exfalso|lia]. assert (Z0 : rat 0 B == 0). { unfold rat. change (qN 0) with 0. field. apply qN_pos in HB. lra. }
    rewrite Z0 in I1. rewrite Pp in LL. nra. }
  destruct (round_ratio_rat f neg P B HP HB) as (e0 & q & E & L0 & L1 & L2 & [J1 J2] & J3). rewrite E. clear E.
  set (r := rat P B) in *. pose proof (pow_prec f G) as PP. fold u in PP.
  assert (qPP : qN (2 ^ Z.to_N (prec f)) == 2 * qN u) by (rewrite PP, qN_mul; reflexivity).
  assert (one : qN 1 == 1) by reflexivity.
  assert (TOP : high_end m e < p2 (e + prec f)).
  { unfold high_end. replace (e + prec f)%Z with ((e + 1) + prec f - 1)%Z by lia. rewrite p2_prec_half by auto. fold u.
    rewrite (p2_half (e + 1)). replace (e + 1 - 1)%Z with e by lia. rewrite Ph, Pp.
    assert (qN m + 1 <= 2 * qN u). { rewrite <- qPP, <- one, <- qN_add. apply qN_le. lia. } nra. }
  destruct (Z.lt_trichotomy e0 e) as [T|[T|T]].
  - assert (Hm : (u <= m)%N) by lia. apply qN_le in Hm as qHm.
    assert (B1 : p2 (e0 + prec f) <= p2 (e + prec f - 1)) by (apply p2_le; lia).
    rewrite (p2_prec_half f e G) in B1. fold u in B1.
    assert (Em : m = u).
    { destruct (N.eq_dec m u) as [|Nm]; auto. exfalso.
      assert (qN u + 1 <= qN m). { rewrite <- one, <- qN_add. apply qN_le. lia. } rewrite Ph in B1. nra. }
    assert (LE : low_end f m e == (4 * qN m - 1) * h).
    { unfold low_end. fold u. rewrite <- Em at 1. rewrite N.eqb_refl. destruct (Z.eqb_spec e (emin f)); [lia|]. reflexivity. }
    rewrite LE in I1.
    assert (T0 : e0 = (e - 1)%Z).
    { destruct (Z.eq_dec e0 (e - 1)) as [|Ne]; auto. exfalso.
      assert (B2 : p2 (e0 + prec f) <= p2 (e - 1 + prec f - 1)) by (apply p2_le; lia).
      rewrite (p2_prec_half f (e - 1) G) in B2. fold u in B2. rewrite Pp, <- Em in B2. nra. }
    subst e0. replace (e - 1 - 1)%Z with (e - 2)%Z in * by lia. fold h in J1, J2, J3.
    assert (Q1 : (2 * m - 1 <= q)%N).
    { apply qN_le. assert (4 * qN m - 1 <= 2 * qN q + 1) by (apply le_mul_reg with h; auto; lra).
      assert (X : qN (2 * m - 1) + 1 == 2 * qN m).
      { rewrite <- one, <- qN_add. replace (2 * m - 1 + 1)%N with (2 * m)%N by lia. rewrite qN_mul. reflexivity. } lra. }
    assert (Q2 : (q <= 2 * m)%N).
    { apply N.lt_succ_r. rewrite <- N.add_1_r. apply qN_lt. rewrite qN_add, qN_mul, one. change (qN 2) with 2.
      assert (2 * qN q - 1 < 4 * qN m); [|lra]. apply lt_mul_reg with h; auto.
      apply Qle_lt_trans with (1 := J1). apply Qlt_le_trans with (1 := L2). rewrite <- Em, Ph, Pp in B1. lra. }
    assert (Q3 : q = (2 * m)%N).
    { destruct (N.eq_dec q (2 * m)) as [|Nq]; auto. exfalso. assert (Eq : q = (2 * (m - 1) + 1)%N) by lia.
      assert (Ev : N.even q = false). { rewrite Eq. rewrite N.add_1_r, N.even_succ, <- N.negb_even, N.even_mul. reflexivity. }
      apply J3 in Ev as [_ J]. assert (2 * qN m == qN q + 1).
      { rewrite <- one, <- qN_add. change 2 with (qN 2). rewrite <- qN_mul. apply qN_eq. lia. } nra. }
    unfold finish. rewrite PP, <- Em, <- Q3, N.eqb_refl. fold u. destruct (N.eqb_spec q 0); [lia|].
    replace (e - 1 + 1)%Z with e by lia. destruct (Z.ltb_spec (emax f) e); [lia|]. now rewrite Em.
  - subst e0. assert (Qm : q = m).
    { unfold high_end in I2, I3. rewrite Pp in *. destruct (N.lt_trichotomy q m) as [L|[L|L]]; auto; exfalso.
      - assert (L' : qN q + 1 <= qN m). { rewrite <- one, <- qN_add. apply qN_le. lia. }
        assert (S1 : (2 * qN q + 1) * (2 * h) <= (2 * qN m - 1) * (2 * h)) by nra.
        destruct (N.even m) eqn:Ev; [|specialize (I3 eq_refl); lra].
        destruct (N.even q) eqn:Eq; [|specialize (J3 eq_refl); lra].
        destruct (N.eq_dec m (q + 1)) as [X|X].
        { rewrite X, N.add_1_r, N.even_succ, <- N.negb_even, Eq in Ev. discriminate. }
        assert (L3 : qN q + 2 <= qN m). { change 2 with (qN 2). rewrite <- qN_add. apply qN_le. lia. } nra.
      - assert (L' : qN m + 1 <= qN q). { rewrite <- one, <- qN_add. apply qN_le. lia. }
        assert (S1 : (2 * qN m + 1) * (2 * h) <= (2 * qN q - 1) * (2 * h)) by nra.
        destruct (N.even m) eqn:Ev; [|specialize (I3 eq_refl); lra].
        destruct (N.even q) eqn:Eq; [|specialize (J3 eq_refl); lra].
        destruct (N.eq_dec q (m + 1)) as [X|X].
        { rewrite X, N.add_1_r, N.even_succ, <- N.negb_even, Ev in Eq. discriminate. }
        assert (L3 : qN m + 2 <= qN q). { change 2 with (qN 2). rewrite <- qN_add. apply qN_le. lia. } nra. }
    subst q. unfold finish. destruct (N.eqb_spec m 0); [lia|]. destruct (N.eqb_spec m (2 ^ Z.to_N (prec f))); [lia|].
    destruct (Z.ltb_spec (emax f) e); [lia|]. reflexivity.
  - exfalso. destruct L1 as [|L1]; [lia|]. assert (p2 (e + prec f) <= p2 (e0 + prec f - 1)) by (apply p2_le; lia). lra.
Qed.

(** relative error of a rounding in the normal range *)
Lemma round_error f neg P B : good_format f -> (0 < P)%N -> (0 < B)%N ->
  p2 (emin f + prec f - 1) <= rat P B -> rat P B < p2 (emax f + prec f - 1) -> exists m e,
  round_ratio f neg P B = FFin neg m e /\
  rat P B * (1 - p2 (- prec f)) <= qN m * p2 e <= rat P B * (1 + p2 (- prec f)).
Proof.
  intros G HP HB H1 H2. destruct (round_ratio_rat f neg P B HP HB) as (e0 & q & E & L0 & L1 & L2 & [J1 J2] & _). rewrite E. clear E.
  set (r := rat P B) in *.
  assert (L3 : p2 (e0 + prec f - 1) <= r) by (destruct L1 as [->|L1]; auto).
  assert (Eh : p2 (e0 - 1) == p2 (e0 + prec f - 1) * p2 (- prec f)).
  { rewrite <- p2_add. now replace (e0 + prec f - 1 + - prec f)%Z with (e0 - 1)%Z by lia. }
  pose proof (p2_pos (- prec f)) as pu. pose proof (p2_pos (e0 - 1)) as ph. pose proof (p2_half e0) as Ph.
  assert (Hh : p2 (e0 - 1) <= r * p2 (- prec f)) by (rewrite Eh; nra).
  assert (V : r * (1 - p2 (- prec f)) <= qN q * p2 e0 <= r * (1 + p2 (- prec f))) by (rewrite Ph; lra).
  assert (E0 : (e0 + 1 <= emax f)%Z). { assert (e0 + prec f - 1 < emax f + prec f - 1)%Z by (apply p2_lt_inv; lra). lia. }
  assert (small : p2 (- prec f) < 1). { change 1 with (p2 0). apply Qpower_lt_compat_l; [|reflexivity]. unfold good_format in G. lia. }
  pose proof (p2_pos (e0 + prec f - 1)) as pl.
  unfold finish. destruct (N.eqb_spec q 0) as [->|Hq].
  { exfalso. change (qN 0) with 0 in V. assert (0 < r * (1 - p2 (- prec f))) by nra. lra. }
  destruct (N.eqb_spec q (2 ^ Z.to_N (prec f))) as [Eq|Eq].
  - destruct (Z.ltb_spec (emax f) (e0 + 1)); [lia|]. eexists _, _. split; [reflexivity|].
    rewrite (p2_half (e0 + 1)). replace (e0 + 1 - 1)%Z with e0 by lia.
    assert (X : qN (2 ^ Z.to_N (prec f - 1)) * (2 * p2 e0) == qN q * p2 e0). { rewrite Eq, pow_prec, qN_mul by auto. change (qN 2) with 2. ring. }
    rewrite X. exact V.
  - destruct (Z.ltb_spec (emax f) e0); [lia|]. eexists _, _. split; [reflexivity|]. exact V.
Qed.
