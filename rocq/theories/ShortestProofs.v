(** The decimals that are printed for floats: they have the fewest digits that read back as the float, and are the closest
    of these. *)
From Verif Require Import Base Str Dec Flt FltProofs FltCanon FltQ FltGap FltF32 Json SpecJson SpecNumber NumberProofs NumberTextProofs NumberStdProofs.
From Coq Require Import ZifyNat ZifyN ZifyBool QArith Qabs Qpower Lqa Lia.
Local Open Scope Q_scope.

(** ** The decimal exponent of an f64 *)
Local Open Scope N_scope.
Definition lg (c : N) : N := c * 30103 / 100000.
Fixpoint table (n : nat) (c P F T : N) : bool :=
  match n with
  | O => true
  | S n => (T <=? P) && (P <? 10 * T) && (F =? lg c) &&
    if 10 * T <=? 2 * P then table n (c + 1) (2 * P) (F + 1) (10 * T) else table n (c + 1) (2 * P) F T
  end.
Lemma table_ok n : forall c F i, table n c (2 ^ c) F (10 ^ F) = true -> (i < n)%nat ->
  10 ^ lg (c + N.of_nat i) <= 2 ^ (c + N.of_nat i) < 10 ^ (lg (c + N.of_nat i) + 1).
Proof.
  induction n as [|n IH]; intros c F i H L; [lia|]. cbn [table] in H.
  replace (2 * 2 ^ c) with (2 ^ (c + 1)) in H by (rewrite N.add_1_r, N.pow_succ_r'; reflexivity).
  replace (10 * 10 ^ F) with (10 ^ (F + 1)) in H by (rewrite N.add_1_r, N.pow_succ_r'; reflexivity).
  apply andb_prop in H as [H H4]. apply andb_prop in H as [H H3]. apply andb_prop in H as [H1 H2].
  apply N.leb_le in H1. apply N.ltb_lt in H2. apply N.eqb_eq in H3. destruct i as [|i].
  - replace (c + N.of_nat 0) with c by lia. rewrite <- H3. auto.
  - replace (c + N.of_nat (S i)) with (c + 1 + N.of_nat i) by lia. destruct (_ <=? _) in H4; apply (IH _ _ _ H4); lia.
Qed.
Lemma table_1100 : table 1100 0 1 0 1 = true.
Proof. vm_compute. reflexivity. Qed.
Lemma lg_spec c : c < 1100 -> 10 ^ lg c <= 2 ^ c < 10 ^ (lg c + 1).
Proof.
  intros H. pose proof (table_ok 1100 0 0 (N.to_nat c) table_1100) as T. replace (0 + N.of_nat (N.to_nat c)) with c in T by lia.
  apply T. lia.
Qed.
Local Open Scope Q_scope.
Lemma p10_opp e : p10 (- e) * p10 e == 1.
Proof. rewrite <- p10_add. replace (- e + e)%Z with 0%Z by lia. reflexivity. Qed.
Lemma k1_spec p : (-1100 < p < 1100)%Z -> let k1 := (p * 30103 / 100000)%Z in p10 k1 <= p2 p /\ p2 (p + 1) <= p10 (k1 + 2).
Proof.
  intros B k1. assert (X2 : p2 (p + 1) == 2 * p2 p) by apply p2_S.
  destruct (Z.le_gt_cases 0 p) as [H|H].
  - destruct (lg_spec (Z.to_N p) ltac:(lia)) as [L1 L2].
    assert (K : k1 = Z.of_N (lg (Z.to_N p))) by (unfold k1, lg; rewrite N2Z.inj_div, N2Z.inj_mul; now replace (Z.of_N (Z.to_N p)) with p by lia).
    apply qN_le in L1. apply qN_lt in L2. rewrite p2_N, p10_N in L1, L2. rewrite N2Z.inj_add, <- K in L2. rewrite <- K in L1.
    replace (Z.of_N (Z.to_N p)) with p in * by lia. split; [assumption|]. rewrite X2.
    replace (k1 + 2)%Z with (k1 + Z.of_N 1 + 1)%Z by lia. rewrite (p10_add _ 1). change (p10 1) with 10. pose proof (p10_pos (k1 + Z.of_N 1)). lra.
  - set (c := Z.to_N (- p)). destruct (lg_spec c ltac:(lia)) as [L1 L2].
    assert (K : k1 = (- Z.of_N (lg c) - 1)%Z).
    { assert (Z.of_N (lg c) = - p * 30103 / 100000)%Z as -> by (unfold lg; rewrite N2Z.inj_div, N2Z.inj_mul; unfold c; now replace (Z.of_N (Z.to_N (- p))) with (- p)%Z by lia).
      unfold k1. assert (ND : (p * 30103 mod 100000 <> 0)%Z); [|clear - ND; lia].
      intros D. apply Z.mod_divide in D; [|discriminate]. rewrite Z.mul_comm in D. apply Znumtheory.Gauss in D.
      - destruct D as [d D]. lia.
      - apply Znumtheory.Zgcd_1_rel_prime. reflexivity. }
    apply qN_le in L1. apply qN_lt in L2. rewrite p2_N, p10_N in L1, L2. rewrite N2Z.inj_add in L2. replace (Z.of_N c) with (- p)%Z in L1, L2 by lia.
    set (F := Z.of_N (lg c)) in *. rewrite p10_add in L2. change (p10 (Z.of_N 1)) with 10 in L2.
    assert (K1 : 10 * p10 k1 == p10 (- F)) by (replace (- F)%Z with (k1 + 1)%Z by lia; rewrite p10_add; change (p10 1) with 10; ring).
    assert (K2 : p10 (k1 + 2) == 10 * p10 (- F)) by (replace (k1 + 2)%Z with (- F + 1)%Z by lia; rewrite p10_add; change (p10 1) with 10; ring).
    pose proof (p2_opp p) as O2. pose proof (p10_opp F) as O10. pose proof (p2_pos p). pose proof (p2_pos (- p)). pose proof (p10_pos F). pose proof (p10_pos (- F)).
    set (u := p2 p) in *. set (u' := p2 (- p)) in *. set (v := p10 F) in *. set (v' := p10 (- F)) in *. rewrite X2, K2.
    assert (A1 : v' <= 10 * u). { assert (v' * v * u' * u <= v' * (10 * v) * u * u'); [nra|]. nra. }
    assert (A2 : u <= v'). { assert (E1 : u == u * v' * v) by (transitivity (u * (v' * v)); [rewrite O10; ring|ring]). assert (E2 : v' == u * v' * u') by (transitivity (v' * (u' * u)); [rewrite O2; ring|ring]).
      rewrite E1, E2 at 1. assert (0 < u * v') by nra. nra. }
    lra.
Qed.
(** the scale of the first digit *)
Lemma dexp_wide P B : (0 < P)%N -> (0 < B)%N -> p2 (-1074) <= rat P B -> rat P B < p2 1024 -> p10 (dexp P B - 1) <= rat P B < p10 (dexp P B).
Proof.
  intros HP HB L U. destruct (fl2_rat P B HP HB) as [F1 F2]. set (p := fl2 P B) in *.
  assert (P1 : (-1074 < p + 1)%Z) by (apply p2_lt_inv; lra). assert (P2 : (p < 1024)%Z) by (apply p2_lt_inv; lra).
  destruct (k1_spec p ltac:(lia)) as [K1 K2]. unfold dexp. fold p. set (k1 := (p * 30103 / 100000)%Z) in *. cbv zeta.
  pose proof (le10_spec P B (k1 + 1) HB) as LS. destruct (if (0 <=? k1 + 1)%Z then _ else _).
  - assert (p10 (k1 + 1) <= rat P B) by (apply LS; reflexivity). replace (k1 + 2 - 1)%Z with (k1 + 1)%Z by lia. split; [auto|lra].
  - assert (~ p10 (k1 + 1) <= rat P B) by (intros X; apply LS in X; discriminate). replace (k1 + 1 - 1)%Z with k1 by lia. split; lra.
Qed.

(** ** The search *)
(** [L] and [L + 1] are the neighbours of [X] among the multiples of 10^E *)
Definition grid (X : Q) (E : Z) (L : N) : Prop := qN L * p10 E <= X < qN (L + 1) * p10 E.
(** [D] is the one of these two that is taken *)
Definition taken (up : bool) (ok : N -> Z -> bool) (X : Q) (E : Z) (L D : N) : Prop :=
  ok D E = true /\
  ((D = L /\ ((2 * (X - qN L * p10 E) <= p10 E /\ (2 * (X - qN L * p10 E) == p10 E -> up = false /\ N.even L = true)) \/ ok (L + 1)%N E = false)) \/
   (D = (L + 1)%N /\ ((p10 E <= 2 * (X - qN L * p10 E) /\ (2 * (X - qN L * p10 E) == p10 E -> up = true \/ N.even L = false)) \/ ok L E = false))).
Lemma step_grid up a b : (0 < b)%N -> let lo := (a / b)%N in
  let near_lo := match (2 * (a mod b) ?= b)%N with Lt => true | Gt => false | Eq => negb up && N.even lo end in
  qN lo <= rat a b < qN (lo + 1) /\
  if near_lo then 2 * (rat a b - qN lo) <= 1 /\ (2 * (rat a b - qN lo) == 1 -> up = false /\ N.even lo = true)
  else 1 <= 2 * (rat a b - qN lo) /\ (2 * (rat a b - qN lo) == 1 -> up = true \/ N.even lo = false).
Proof.
  intros Hb lo. cbv zeta. pose proof (N.div_mod a b ltac:(lia)) as DM. pose proof (N.mod_lt a b ltac:(lia)) as ML. fold lo in DM.
  set (r := (a mod b)%N) in *.
  assert (X : rat a b * qN b == qN b * qN lo + qN r).
  { unfold rat. rewrite DM at 1. rewrite qN_add, qN_mul. apply qN_pos in Hb. field. lra. }
  apply qN_pos in Hb as Hb'. pose proof (qN_nonneg r) as r0. apply qN_lt in ML as ML'.
  assert (one : qN 1 == 1) by reflexivity. assert (two : qN 2 == 2) by reflexivity.
  set (q := rat a b) in *. rewrite qN_add, one. split.
  { split; [apply Qmult_lt_0_le_reg_r with (qN b); auto; lra|]. apply lt_mul_reg with (qN b); auto. lra. }
  destruct (N.compare_spec (2 * r) b) as [C|C|C].
  - apply qN_eq in C. rewrite qN_mul, two in C. assert (2 * (q - qN lo) == 1) by (apply (Qmult_inj_r _ _ (qN b)); lra).
    destruct up, (N.even lo); cbn [negb andb]; (split; [lra|auto]).
  - apply qN_lt in C. rewrite qN_mul, two in C. assert (2 * (q - qN lo) < 1) by (apply lt_mul_reg with (qN b); auto; lra). split; [lra|intros; lra].
  - apply qN_lt in C. rewrite qN_mul, two in C. assert (1 < 2 * (q - qN lo)) by (apply lt_mul_reg with (qN b); auto; lra). split; [lra|intros; lra].
Qed.
Lemma search_grid up ok P B k fuel n : (0 < B)%N ->
  match shortest_search up ok P B k fuel n with
  | Some (D, E) => exists n' L, (n <= n' < n + Z.of_nat fuel)%Z /\ E = (k - n')%Z /\ grid (rat P B) E L /\ taken up ok (rat P B) E L D /\
      forall i, (n <= i < n')%Z -> exists M, grid (rat P B) (k - i) M /\ ok M (k - i)%Z = false /\ ok (M + 1)%N (k - i)%Z = false
  | None => forall i, (n <= i < n + Z.of_nat fuel)%Z -> exists M, grid (rat P B) (k - i) M /\ ok M (k - i)%Z = false /\ ok (M + 1)%N (k - i)%Z = false
  end.
Proof.
  intros HB. revert n; induction fuel as [|fuel IH]; intros n; cbn [shortest_search]; [intros i Hi; lia|].
  destruct (if (0 <=? n - k)%Z then _ else _) as [a b] eqn:SR. cbv zeta.
  destruct (search_step_ratio P B (n - k) a b HB SR) as [Hb R]. destruct (step_grid up a b Hb) as [G NL]. cbv zeta in NL.
  set (lo := (a / b)%N) in *. set (t := (- (n - k))%Z) in *. assert (Ht : t = (k - n)%Z) by lia.
  pose proof (p10_pos t) as pt.
  assert (GR : grid (rat P B) t lo) by (unfold grid; rewrite <- R; split; [apply Qmult_le_compat_r; lra|apply Qmult_lt_compat_r; lra]).
  assert (K : ok lo t = false -> ok (lo + 1)%N t = false -> match shortest_search up ok P B k fuel (n + 1) with
    | Some (D, E) => exists n' L, (n <= n' < n + Z.of_nat (S fuel))%Z /\ E = (k - n')%Z /\ grid (rat P B) E L /\ taken up ok (rat P B) E L D /\
      forall i, (n <= i < n')%Z -> exists M, grid (rat P B) (k - i) M /\ ok M (k - i)%Z = false /\ ok (M + 1)%N (k - i)%Z = false
    | None => forall i, (n <= i < n + Z.of_nat (S fuel))%Z -> exists M, grid (rat P B) (k - i) M /\ ok M (k - i)%Z = false /\ ok (M + 1)%N (k - i)%Z = false
    end).
  { intros O1 O2. specialize (IH (n + 1)%Z). destruct (shortest_search up ok P B k fuel (n + 1)) as [[D E]|].
    - destruct IH as (n' & L & Hn & HE & HG & HT & HI). exists n', L. split; [lia|]. split; [assumption|]. split; [assumption|]. split; [assumption|].
      intros i Hi. destruct (Z.eq_dec i n) as [->|]; [|apply HI; lia]. exists lo. rewrite <- Ht. auto.
    - intros i Hi. destruct (Z.eq_dec i n) as [->|]; [|apply IH; lia]. exists lo. rewrite <- Ht. auto. }
  set (c := match (2 * (a mod b) ?= b)%N with Lt => true | Gt => false | Eq => _ end) in *.
  destruct c.
  - destruct (ok lo t) eqn:O1; [|destruct (ok (lo + 1)%N t) eqn:O2]; [| |exact (K eq_refl eq_refl)].
    + exists n, lo. split; [lia|]. split; [assumption|]. split; [assumption|]. split; [|intros; lia]. split; [assumption|]. left. split; [reflexivity|]. left. rewrite <- R. destruct NL as [NL1 NL2]. split; [nra|]. intros T. apply NL2. apply (Qmult_inj_r _ _ (p10 t)); lra.
    + exists n, lo. split; [lia|]. split; [assumption|]. split; [assumption|]. split; [|intros; lia]. split; [assumption|]. right. auto.
  - destruct (ok (lo + 1)%N t) eqn:O1; [|destruct (ok lo t) eqn:O2]; [| |exact (K eq_refl eq_refl)].
    + exists n, lo. split; [lia|]. split; [assumption|]. split; [assumption|]. split; [|intros; lia]. split; [assumption|]. right. split; [reflexivity|]. left. rewrite <- R. destruct NL as [NL1 NL2]. split; [nra|]. intros T. apply NL2. apply (Qmult_inj_r _ _ (p10 t)); lra.
    + exists n, lo. split; [lia|]. split; [assumption|]. split; [assumption|]. split; [|intros; lia]. split; [assumption|]. left. auto.
Qed.

(** ** What the search finds *)
Lemma decimal_p10 D E : decimal_value D E = qN D * p10 E.
Proof. reflexivity. Qed.
Lemma nearest_in f neg m e D E : wide f -> canonical f (FFin neg m e) = true -> nearest f neg (decimal_value D E) (FFin neg m e) <-> in_interval f m e (qN D * p10 E).
Proof.
  intros W C. apply canonical_member in C as [M0 M]. rewrite decimal_p10. split.
  - intros N. inversion N as [m' e' M' QL H1 H2 EQ|QL EQ]. unfold float in EQ. destruct (m' =? 0)%N; [discriminate|]. injection EQ as <- <-.
    apply nearest_interval; auto; [apply W|]. pose proof (p10_pos E). pose proof (qN_nonneg D). nra.
  - intros I. pose proof (interval_nearest f neg m e _ (proj1 W) M I) as N. unfold float in N. destruct (N.eqb_spec m 0); [lia|exact N].
Qed.
Lemma convex f m e u v w : in_interval f m e u -> in_interval f m e w -> u <= v -> v <= w -> in_interval f m e v.
Proof. intros [[A1 A2] A3] [[B1 B2] B3] L1 L2. split; [lra|]. intros Ev. specialize (A3 Ev). specialize (B3 Ev). lra. Qed.
Lemma margin_of f m e y : good_format f -> canonical f (FFin false m e) = true -> let x := qN m * p2 e in let W := qN (2 ^ Z.to_N (prec f)) in
  2 * W * (y - x) < x -> 2 * W * (x - y) < x -> low_end f m e < y < high_end m e.
Proof.
  intros G C x W L1 L2. apply canonical_member in C as [M0 (M1 & M2 & M3)]. pose proof (pow_prec f G) as PP. pose proof (pow2_pos (Z.to_N (prec f - 1))) as P0.
  apply qN_lt in M1. fold W in M1. apply qN_pos in M0 as M0'. assert (EW : W == 2 * qN (2 ^ Z.to_N (prec f - 1))) by (unfold W; rewrite PP, qN_mul; reflexivity).
  unfold low_end, high_end. unfold x in *. rewrite (p2_half e), (p2_pred e) in L1, L2. pose proof (p2_pos (e - 2)) as h0. set (h := p2 (e - 2)) in *.
  assert (W0 : 0 < W) by lra. set (d := y - qN m * (2 * (2 * h))) in *.
  assert (D1 : d < 2 * h). { apply lt_mul_reg with (2 * W); [lra|]. assert (qN m * h < W * h) by nra. lra. }
  assert (D2 : - d < 2 * h). { apply lt_mul_reg with (2 * W); [lra|]. assert (qN m * h < W * h) by nra. unfold d in *. lra. }
  destruct (N.eqb_spec m (2 ^ Z.to_N (prec f - 1))) as [Hm|Hm]; [destruct (Z.eqb_spec e (emin f)) as [He|He]|]; cbn [negb andb]; rewrite ?(p2_pred e); fold h.
  - unfold d in *. lra.
  - assert (D3 : - d < h). { apply lt_mul_reg with (2 * W); [lra|]. rewrite <- Hm in EW. unfold d in *. rewrite EW in *. lra. }
    unfold d in *. lra.
  - unfold d in *. lra.
Qed.
(** a decimal with at most [n] digits does not lie strictly between [X] and its neighbours on the grid of 10^(k - n) *)
Lemma beat X k n L D E : p10 (k - 1) <= X -> (1 <= n)%Z -> grid X (k - n) L -> (D < 10 ^ Z.to_N n)%N ->
  let v := qN D * p10 E in (v <= X -> v <= qN L * p10 (k - n)) /\ (X < v -> qN (L + 1) * p10 (k - n) <= v).
Proof.
  intros K1 Hn [G1 G2] HD v. pose proof (p10_pos (k - n)) as ps. set (s := p10 (k - n)) in *.
  destruct (Z.le_gt_cases (k - n) E) as [HE|HE].
  - set (A := (D * 10 ^ Z.to_N (E - (k - n)))%N).
    assert (V : v == qN A * s).
    { unfold v, A, s. rewrite qN_mul, p10_N. replace (p10 E) with (p10 (E - (k - n) + (k - n))) by (f_equal; lia). rewrite p10_add.
      replace (Z.of_N (Z.to_N (E - (k - n)))) with (E - (k - n))%Z by lia. ring. }
    split; intros H.
    + rewrite V. apply Qmult_le_compat_r; [|lra]. apply qN_le. assert (qN A < qN (L + 1)) by (apply lt_mul_reg with s; lra). apply qN_lt in H0. lia.
    + rewrite V. apply Qmult_le_compat_r; [|lra]. apply qN_le. assert (qN L < qN A) by (apply lt_mul_reg with s; lra). apply qN_lt in H0. lia.
  - assert (V : v < p10 (k - 1)).
    { apply qN_lt in HD. rewrite p10_N in HD. replace (Z.of_N (Z.to_N n)) with n in HD by lia. pose proof (p10_pos E).
      apply Qlt_le_trans with (p10 n * p10 E); [unfold v; nra|]. rewrite <- p10_add. apply p10_le. lia. }
    assert (T : p10 (k - 1) == qN (10 ^ Z.to_N (n - 1)) * s).
    { unfold s. rewrite p10_N, <- p10_add. replace (Z.of_N (Z.to_N (n - 1)) + (k - n))%Z with (k - 1)%Z by lia. reflexivity. }
    split; intros H; [|lra]. apply Qle_trans with (p10 (k - 1)); [lra|]. rewrite T. apply Qmult_le_compat_r; [|lra]. apply qN_le.
    assert (qN (10 ^ Z.to_N (n - 1)) < qN (L + 1)) by (apply lt_mul_reg with s; lra). apply qN_lt in H0. lia.
Qed.
Definition enough (f : fformat) : Prop :=
  wide f /\ (-1074 <= emin f)%Z /\ (emax f + prec f <= 1024)%Z /\ (1 <= maxdigits f)%nat /\ (2 ^ Z.to_N (prec f) < 10 ^ N.of_nat (maxdigits f - 1))%N.
Lemma enough_F64 : enough F64.
Proof. split; [exact wide_F64|]. repeat split; try (cbn; lia); vm_compute; reflexivity. Qed.
Lemma enough_F32 : enough F32.
Proof. split; [exact wide_F32|]. repeat split; try (cbn; lia); vm_compute; reflexivity. Qed.
Lemma range_of f m e : enough f -> canonical f (FFin false m e) = true -> p2 (-1074) <= qN m * p2 e < p2 1024.
Proof.
  intros (W & E1 & E2 & _) C. apply canonical_member in C as [M0 (M1 & M2 & _)]. pose proof (proj1 W) as G.
  apply N.le_succ_l in M0. apply qN_le in M0. change (qN (N.succ 0)) with 1 in M0. apply qN_lt in M1.
  assert (p2 (-1074) <= p2 e) by (apply p2_le; lia). pose proof (p2_pos e). split; [nra|].
  apply Qlt_le_trans with (qN (2 ^ Z.to_N (prec f)) * p2 e); [nra|]. rewrite p2_N, <- p2_add. apply p2_le. unfold good_format in G. lia.
Qed.

Theorem search_shortest up f neg m e D E : enough f -> canonical f (FFin neg m e) = true ->
  shortest up (fun D E => flt_eqb (round_dec f false D E) (FFin false m e)) f m e = (D, E) ->
  let '(D1, E1) := if (D mod 10 =? 0)%N then ((D / 10)%N, (E + 1)%Z) else (D, E) in shortest_decimal up f neg m e D1 E1.
Proof.
  intros EN C. set (ok := fun D E => flt_eqb (round_dec f false D E) (FFin false m e)).
  assert (C' : canonical f (FFin false m e) = true) by exact C. pose proof (proj1 EN) as W.
  assert (OK : forall D E, ok D E = true <-> in_interval f m e (qN D * p10 E)).
  { intros D' E'. rewrite <- (nearest_in f false m e D' E' W C'). unfold decimal_value. rewrite nearest_dec by assumption. unfold ok. split; intros H.
    - now apply flt_eqb_eq in H.
    - rewrite <- H. cbn. now rewrite N.eqb_refl, Z.eqb_refl. }
  assert (NO : forall D E, ok D E = false -> ~ in_interval f m e (qN D * p10 E)) by (intros D' E' H I; apply OK in I; congruence).
  unfold shortest. destruct (ratio_of m e) as [P B] eqn:R. destruct (ratio_of_rat _ _ _ _ R) as [HB Ex].
  apply canonical_member in C' as M. destruct M as [M0 M]. pose proof (ratio_of_pos _ _ _ _ R M0) as HP. destruct (range_of f m e EN C') as [X1 X2].
  rewrite <- Ex in X1, X2. destruct (dexp_wide P B HP HB X1 X2) as [K1 K2]. set (k := dexp P B) in *.
  assert (IX : in_interval f m e (rat P B)).
  { apply in_interval_comp with (qN m * p2 e); [now rewrite Ex|]. pose proof (self_interval f m e (proj1 W) ltac:(lia)) as S. split; [lra|auto]. }
  pose proof (search_grid up ok P B k (maxdigits f) 1 HB) as SG. set (X := rat P B) in *.
  assert (BELOW : forall i M D' E', (1 <= i)%Z -> grid X (k - i) M -> ok M (k - i)%Z = false -> ok (M + 1)%N (k - i)%Z = false -> (D' < 10 ^ Z.to_N i)%N ->
    in_interval f m e (qN D' * p10 E') -> False).
  { intros i L D' E' Hi G O1 O2 HD I. destruct (beat X k i L D' E' K1 Hi G HD) as [B1 B2]. apply NO in O1, O2. destruct G as [G1 G2].
    destruct (Qlt_le_dec X (qN D' * p10 E')) as [H|H].
    - apply O2. apply (convex f m e X _ (qN D' * p10 E')); auto. lra.
    - apply O1. apply (convex f m e (qN D' * p10 E') _ X); auto. }
  destruct (shortest_search up ok P B k (maxdigits f) 1) as [[D0 E0]|].
  2:{ exfalso. destruct EN as (_ & _ & _ & MD & TEN). destruct (SG (Z.of_nat (maxdigits f)) ltac:(lia)) as (L & [G1 G2] & O1 & O2).
      set (s := p10 (k - Z.of_nat (maxdigits f))) in *. pose proof (p10_pos (k - Z.of_nat (maxdigits f))) as ps. fold s in ps.
      assert (T : qN (2 ^ Z.to_N (prec f)) * s < X).
      { apply qN_lt in TEN. rewrite (p10_N (N.of_nat _)) in TEN. apply Qlt_le_trans with (2 := K1).
        replace (k - 1)%Z with (Z.of_N (N.of_nat (maxdigits f - 1)) + (k - Z.of_nat (maxdigits f)))%Z by lia. rewrite p10_add. fold s. nra. }
      pose proof (margin_of f m e) as MG. cbv zeta in MG. set (V := qN (2 ^ Z.to_N (prec f))) in *. assert (V0 : 0 <= V) by apply qN_nonneg. rewrite qN_S in G2.
      destruct (Qlt_le_dec (2 * (X - qN L * s)) s) as [H|H].
      - apply NO in O1. apply O1. fold s. specialize (MG (qN L * s) (proj1 W) C'). rewrite <- Ex in MG. fold X in MG. destruct MG as [A1 A2]; [nra|nra|]. split; [lra|auto].
      - apply NO in O2. apply O2. fold s. specialize (MG (qN (L + 1) * s) (proj1 W) C'). rewrite <- Ex in MG. fold X in MG.
        assert (DD : qN (L + 1) * s - X == (qN L + 1) * s - X) by (rewrite qN_S; ring). set (d := qN (L + 1) * s - X) in *.
        assert (D1 : 2 * d <= s) by lra. assert (D2 : 0 <= d) by lra. assert (D3 : V * (2 * d) <= V * s) by nra.
        assert (D4 : 2 * V * (X - qN (L + 1) * s) < X). { assert (X - qN (L + 1) * s == - d) as -> by (unfold d; ring). assert (0 <= V * d) by nra. assert (0 <= V * s) by nra. lra. }
        destruct MG as [A1 A2]; [lra|assumption|]. split; [lra|auto]. }
  destruct SG as (n & L & Hn & HE & G & [T1 T2] & LESS). intros [= <- <-]. pose proof G as [G1 G2]. pose proof (p10_pos E0) as ps.
  apply OK in T1 as I0.
  (* the bounds of the digits *)
  assert (DU : (D0 <= 10 ^ Z.to_N n)%N).
  { assert (L < 10 ^ Z.to_N n)%N; [|lia]. apply qN_lt. rewrite p10_N. replace (Z.of_N (Z.to_N n)) with n by lia. apply lt_mul_reg with (p10 E0); [assumption|].
    rewrite <- p10_add. replace (n + E0)%Z with k by lia. lra. }
  assert (DL : forall D' E', in_interval f m e (qN D' * p10 E') -> (10 ^ Z.to_N (n - 1) <= D')%N).
  { intros D' E' I. destruct (N.le_gt_cases (10 ^ Z.to_N (n - 1)) D') as [|H]; [assumption|exfalso]. destruct (Z.eq_dec n 1) as [->|N1].
    - change (10 ^ Z.to_N (1 - 1))%N with 1%N in H. assert (D' = 0%N) as -> by lia. destruct I as [[I _] _]. change (qN 0) with 0 in I. rewrite Qmult_0_l in I.
      assert (0 < low_end f m e); [|lra]. apply N.le_succ_l, qN_le in M0. change (qN (N.succ 0)) with 1 in M0. unfold low_end.
      pose proof (p2_pos (e - 1)). pose proof (p2_pos (e - 2)). destruct (_ && _); nra.
    - destruct (LESS (n - 1)%Z ltac:(lia)) as (L' & G' & O1 & O2). apply (BELOW (n - 1)%Z L' D' E'); auto. lia. }
  assert (PN : (10 ^ Z.to_N n = 10 * 10 ^ Z.to_N (n - 1))%N).
  { replace (Z.to_N n) with (N.succ (Z.to_N (n - 1))) by lia. apply N.pow_succ_r'. }
  assert (FIN : forall D1 E1, qN D1 * p10 E1 == qN D0 * p10 E0 -> (D1 < 10 ^ Z.to_N n)%N ->
    (E1 = E0 /\ D1 = D0) \/ (E1 = (E0 + 1)%Z /\ D0 = (10 * D1)%N) -> shortest_decimal up f neg m e D1 E1).
  { intros D1 E1 V B1 SAME. split. { apply nearest_in; auto. apply in_interval_comp with (2 := I0). now rewrite V. }
    intros D' E' N'. apply nearest_in in N'; [|assumption|assumption]. pose proof (DL _ _ N') as B'. split.
    - intros j H. apply N.lt_le_trans with (1 := B1). apply N.pow_le_mono_r; [lia|]. assert (Z.to_N (n - 1) < j)%N; [|lia].
      apply (N.pow_lt_mono_r_iff 10); lia.
    - intros NL. specialize (NL _ B1). destruct (beat X k n L D' E' K1 ltac:(lia) ltac:(now rewrite <- HE) NL) as [A1 A2]. rewrite <- HE in A1, A2.
      assert (GRIDEVEN : forall J, qN D' * p10 E' == qN J * p10 E0 -> (E1 <= E')%Z -> N.even J = false -> N.even D0 = true -> N.even D1 = true).
      { intros J VM LE OM ED. destruct SAME as [[_ ->]|[-> ->]]; [assumption|]. exfalso.
        assert (J = D' * 10 ^ Z.to_N (E' - E0))%N as ->.
        { apply qN_eq. apply (Qmult_inj_r _ _ (p10 E0)); [lra|]. rewrite <- VM, qN_mul, p10_N.
          replace (p10 E') with (p10 (E' - E0 + E0)) by (f_equal; lia). rewrite p10_add. replace (Z.of_N (Z.to_N (E' - E0))) with (E' - E0)%Z by lia. ring. }
        rewrite N.even_mul, N.even_pow in OM by lia. rewrite orb_true_r in OM. discriminate. }
      rewrite !decimal_p10, V, size_p2, <- Ex. fold X. set (v := qN D' * p10 E') in *. rewrite qN_S in *.
      destruct (Qlt_le_dec X v) as [H|H].
      + specialize (A2 H). rewrite (Qabs_pos (v - X)) by lra. destruct T2 as [[-> T2]|[-> T2]].
        * destruct T2 as [[T2 TIE]|T2]; [|exfalso; apply (NO _ _ T2); apply (convex f m e X _ v); auto; rewrite qN_S; lra].
          rewrite Qabs_neg by lra. split; [lra|]. intros Q. assert (TE : 2 * (X - qN L * p10 E0) == p10 E0) by lra. destruct (TIE TE) as [-> EL]. right. cbn.
          intros LE. apply (GRIDEVEN (L + 1)%N); auto; [rewrite qN_S; unfold v in *; lra|]. rewrite N.even_add. rewrite EL. reflexivity.
        * rewrite qN_S, Qabs_pos by lra. split; [lra|]. intros Q. left. lra.
      + specialize (A1 H). rewrite (Qabs_neg (v - X)) by lra. destruct T2 as [[-> T2]|[-> T2]].
        * rewrite Qabs_neg by lra. split; [lra|]. intros Q. left. lra.
        * rewrite qN_S. destruct T2 as [[T2 TIE]|T2]; [|exfalso; apply (NO _ _ T2); apply (convex f m e v _ X); auto; lra].
          rewrite Qabs_pos by lra. split; [lra|]. intros Q. assert (TE : 2 * (X - qN L * p10 E0) == p10 E0) by lra. right.
          destruct up; cbn [preferred]; [rewrite !decimal_p10, V, qN_S; fold v; lra|]. destruct (TIE TE) as [|EL]; [discriminate|]. intros LE. apply (GRIDEVEN L); auto; [unfold v in *; lra|]. rewrite N.even_add, EL. reflexivity. }
  destruct (N.eqb_spec (D0 mod 10) 0) as [Z0|Z0].
  - pose proof (N.div_mod D0 10 ltac:(lia)) as DM. rewrite Z0, N.add_0_r in DM. apply FIN; [|lia|right; split; [reflexivity|assumption]].
    rewrite DM at 2. rewrite qN_mul, p10_add. change (p10 1) with 10. change (qN 10) with 10. ring.
  - apply FIN; [reflexivity| |left; auto]. destruct (N.eq_dec D0 (10 ^ Z.to_N n)) as [Q|Q]; [|lia]. exfalso. apply Z0. rewrite Q, PN, N.mul_comm. now apply N.mod_mul.
Qed.

(** ** The texts *)
Local Open Scope Z_scope.
Lemma decimal_zeros n : decimal (repeat CH_0 n) = 0.
Proof. induction n as [|n IH]; [reflexivity|]. cbn [repeat decimal]. rewrite IH. reflexivity. Qed.
Lemma decimal_dec D : decimal (dec_of_N D) = Z.of_N D.
Proof. now rewrite <- digits_decimal, digits_N_dec. Qed.
Lemma decimal_lt ds : Forall (fun c => 48 <= c <= 57)%N ds -> decimal ds < 10 ^ Z.of_nat (length ds).
Proof.
  induction 1 as [|c ds H F IH]; [reflexivity|]. cbn [decimal length]. rewrite Nat2Z.inj_succ, Z.pow_succ_r by lia.
  assert (0 < 10 ^ Z.of_nat (length ds)) by (apply Z.pow_pos_nonneg; lia). nia.
Qed.
Lemma dec_digits_F D : Forall (fun c => 48 <= c <= 57)%N (dec_of_N D).
Proof. apply Forall_digits, dec_of_N_digits. Qed.
Lemma dec_length D : (D <> 0)%N -> let l := Z.of_nat (length (dec_of_N D)) in 1 <= l /\ 10 ^ (l - 1) <= Z.of_N D < 10 ^ l.
Proof.
  intros H l. pose proof (dec_of_N_nonnil D) as N0. pose proof (dec_of_N_lead D H) as L. pose proof (decimal_dec D) as V. pose proof (dec_digits_F D) as F.
  pose proof (decimal_lt _ F) as U. rewrite V in U. fold l in U. unfold l in *. destruct (dec_of_N D) as [|c r]; [congruence|]. cbn [hd] in L. cbn [decimal length] in *.
  split; [lia|]. split; [|exact U]. replace (Z.of_nat (S (length r)) - 1) with (Z.of_nat (length r)) by lia. rewrite <- V. pose proof (decimal_nonneg r).
  inversion F; subst. assert (0 < 10 ^ Z.of_nat (length r)) by (apply Z.pow_pos_nonneg; lia). nia.
Qed.
Lemma int_text_lead ds r : Forall (fun c => 48 <= c <= 57)%N (ds ++ r) -> ds <> [] -> hd 0%N ds <> 48%N -> int_text (ds ++ r).
Proof.
  destruct ds as [|c ds]; [congruence|]. cbn [hd app]. intros F _ H. inversion F; subst. constructor; [lia|assumption].
Qed.
Lemma display_positional D E : (D <> 0)%N -> positional D E (display_dec D E).
Proof.
  intros H. unfold display_dec, positional. pose proof (dec_digits_F D) as F. pose proof (dec_of_N_nonnil D) as N0. pose proof (dec_of_N_lead D H) as L. pose proof (decimal_dec D) as V.
  set (ds := dec_of_N D) in *. assert (FZ : forall n, Forall (fun c => 48 <= c <= 57)%N (repeat CH_0 n)) by (intros n; apply Forall_forall; intros x X; apply repeat_spec in X as ->; unfold CH_0; lia).
  destruct (Z.leb_spec 0 E) as [HE|HE].
  - exists (ds ++ repeat CH_0 (Z.to_nat E)), []. rewrite !app_nil_r. split; [|split; [constructor|split; [reflexivity|split; [|cbn; lia]]]].
    + apply int_text_lead; auto. apply Forall_app. auto.
    + rewrite decimal_app, decimal_zeros, repeat_length, V. replace (Z.of_nat (Z.to_nat E)) with (Z.max E 0) by lia. lia.
  - set (k := Z.to_nat (- E)). replace (Z.max E 0) with 0 by lia. change (10 ^ 0) with 1. rewrite Z.mul_1_r. destruct (Nat.ltb_spec k (length ds)) as [K|K].
    + assert (SN : skipn (length ds - k) ds <> []) by (intros X; apply (f_equal (@length N)) in X; rewrite skipn_length in X; cbn [length] in X; lia).
      exists (firstn (length ds - k) ds), (skipn (length ds - k) ds). rewrite firstn_skipn. assert (F' := F). rewrite <- (firstn_skipn (length ds - k) ds) in F'. apply Forall_app in F' as [F1 F2].
      split; [|split; [assumption|split; [|split; [assumption|rewrite skipn_length; lia]]]].
      * rewrite <- (app_nil_r (firstn _ ds)). apply int_text_lead; [now rewrite app_nil_r|intros X; apply (f_equal (@length N)) in X; rewrite firstn_length in X; cbn [length] in X; lia|].
        destruct ds as [|c r]; [congruence|]. destruct (length (c :: r) - k)%nat eqn:Q; [lia|exact L].
      * destruct (skipn (length ds - k) ds); [congruence|reflexivity].
    + exists (lit "0"), (repeat CH_0 (k - length ds) ++ ds). split; [constructor|]. split; [apply Forall_app; auto|]. split; [|split].
      * destruct (repeat CH_0 (k - length ds) ++ ds) eqn:Q; [|reflexivity]. apply app_eq_nil in Q as [_ Q]. congruence.
      * change (lit "0" ++ repeat CH_0 (k - length ds) ++ ds) with (repeat CH_0 (S (k - length ds)) ++ ds). rewrite decimal_app, decimal_zeros, V. lia.
      * rewrite app_length, repeat_length. lia.
Qed.
(** texts of the same value and length are equal *)
Lemma decimal_inj a : forall b, Forall (fun c => 48 <= c <= 57)%N a -> Forall (fun c => 48 <= c <= 57)%N b -> length a = length b -> decimal a = decimal b -> a = b.
Proof.
  induction a as [|c a IH]; intros [|d b] FA FB L E; try discriminate; [reflexivity|]. inversion FA; inversion FB; subst. injection L as L. cbn [decimal] in E. rewrite L in E.
  assert (A : decimal a < 10 ^ Z.of_nat (length b)) by (rewrite <- L; now apply decimal_lt). assert (B : decimal b < 10 ^ Z.of_nat (length b)) by now apply decimal_lt.
  pose proof (decimal_nonneg a). pose proof (decimal_nonneg b). assert (c = d) as -> by nia. f_equal. apply IH; auto. lia.
Qed.
Lemma int_length i : int_text i -> Forall (fun c => 48 <= c <= 57)%N i /\ (1 <= length i)%nat /\ decimal i < 10 ^ Z.of_nat (length i) /\ (length i = 1%nat \/ 10 ^ (Z.of_nat (length i) - 1) <= decimal i).
Proof.
  intros H. assert (F : Forall (fun c => 48 <= c <= 57)%N i) by (destruct H as [|c d H F]; [change (lit "0") with [48%N]; constructor; [lia|constructor]|constructor; [lia|assumption]]).
  split; [assumption|]. destruct H as [|c d H F']; [cbn; split; [lia|]; split; [lia|now left]|]. split; [cbn; lia|]. split; [now apply decimal_lt|]. right. cbn [decimal length].
  replace (Z.of_nat (S (length d)) - 1) with (Z.of_nat (length d)) by lia. pose proof (decimal_nonneg d). assert (0 < 10 ^ Z.of_nat (length d)) by (apply Z.pow_pos_nonneg; lia). nia.
Qed.
Lemma int_inj i i' : int_text i -> int_text i' -> decimal i = decimal i' -> i = i'.
Proof.
  intros H H' E. destruct (int_length i H) as (F & L1 & L2 & L3), (int_length i' H') as (F' & L1' & L2' & L3'). apply decimal_inj; auto.
  assert (K : forall a b v, 10 ^ (Z.of_nat a - 1) <= v -> v < 10 ^ Z.of_nat b -> (a <= b)%nat).
  { intros a b v A B. assert (10 ^ (Z.of_nat a - 1) < 10 ^ Z.of_nat b) by lia. assert (Z.of_nat a - 1 < Z.of_nat b); [|lia]. apply (Z.pow_lt_mono_r_iff 10); lia. }
  rewrite E in *. destruct L3 as [L3|L3], L3' as [L3'|L3']; try pose proof (K _ _ _ L3 L2'); try pose proof (K _ _ _ L3' L2); lia.
Qed.
Theorem positional_unique D E t t' : positional D E t -> positional D E t' -> t = t'.
Proof.
  intros (i & f & I & F & -> & V & L) (i' & f' & I' & F' & -> & V' & L'). assert (LE : length f = length f') by lia. rewrite <- V', !decimal_app in V. rewrite LE in V.
  pose proof (decimal_nonneg f). pose proof (decimal_nonneg f'). pose proof (decimal_lt f F) as B. pose proof (decimal_lt f' F') as B'. rewrite LE in B.
  assert (decimal i = decimal i') by nia. assert (f = f') as -> by (apply decimal_inj; auto; lia). now rewrite (int_inj i i').
Qed.
Lemma ryu_value neg D E : (D <> 0)%N -> let n := ryu_num neg D E in
  jneg n = neg /\ (exact_value n == decimal_value D E)%Q /\
  ((ten (-6) <= decimal_value D E < ten 13)%Q -> jexp n = None /\ jfrac n <> None /\ Z.of_nat (length (fraction n)) = Z.max (- E) 1) /\
  (~ (ten (-6) <= decimal_value D E < ten 13)%Q ->
     jexp n <> None /\ digits_value n = Z.of_N D /\ jint n <> lit "0" /\ length (jint n) = 1%nat /\ (jfrac n = None <-> (D < 10)%N)).
Proof.
  intros H. cbv zeta. unfold ryu_num. pose proof (dec_of_N_nonnil D) as N0. pose proof (dec_of_N_lead D H) as L. pose proof (decimal_dec D) as V. destruct (dec_length D H) as (L1 & L2 & L3).
  set (ds := dec_of_N D) in *. set (len := Z.of_nat (length ds)) in *. set (kk := len + E).
  assert (R1 : (ten (kk - 1) <= decimal_value D E)%Q).
  { unfold decimal_value. change ten with p10. replace (kk - 1) with (len - 1 + E) by lia. rewrite p10_add. apply Qmult_le_compat_r; [|apply Qlt_le_weak, p10_pos].
    change (p10 (len - 1)) with (inject_Z 10 ^ (len - 1))%Q. rewrite <- Zpower_Qpower by lia. rewrite <- Zle_Qle. exact L2. }
  assert (R2 : (decimal_value D E < ten kk)%Q).
  { unfold decimal_value. change ten with p10. unfold kk. rewrite p10_add. apply Qmult_lt_compat_r; [apply p10_pos|].
    change (p10 len) with (inject_Z 10 ^ len)%Q. rewrite <- Zpower_Qpower by lia. rewrite <- Zlt_Qlt. exact L3. }
  assert (RG : (ten (-6) <= decimal_value D E < ten 13)%Q <-> -6 < kk <= 13).
  { split; intros [A1 A2].
    - split; [apply p10_lt_inv; exact (Qle_lt_trans _ _ _ A1 R2)|]. assert (kk - 1 < 13); [|lia]. apply p10_lt_inv. exact (Qle_lt_trans _ _ _ R1 A2).
    - split; [apply Qle_trans with (2 := R1), p10_le; lia|apply Qlt_le_trans with (1 := R2), p10_le; lia]. }
  assert (XV : forall n a, digits_value n = Z.of_N D * 10 ^ Z.of_nat a -> power n = E - Z.of_nat a -> (exact_value n == decimal_value D E)%Q).
  { intros n a A1 A2. unfold exact_value, decimal_value. rewrite A1, A2, inject_Z_mult. rewrite Zpower_Qpower by lia. change ten with p10. change (inject_Z 10 ^ Z.of_nat a)%Q with (p10 (Z.of_nat a)).
    replace (p10 E) with (p10 (Z.of_nat a + (E - Z.of_nat a))) by (f_equal; lia). rewrite p10_add. ring. }
  destruct ((0 <=? E) && (kk <=? 13)) eqn:E1; [|destruct ((0 <? kk) && (kk <=? 13)) eqn:E2; [|destruct ((-6 <? kk) && (kk <=? 0)) eqn:E3]].
  - assert (G : -6 < kk <= 13) by lia. split; [reflexivity|]. split; [|split; [|intros X; exfalso; apply X, RG, G]].
    + apply XV with (Z.to_nat (E + 1)).
      * unfold digits_value, fraction. cbn [jint jfrac]. rewrite <- app_assoc. change [CH_0] with (repeat CH_0 1). rewrite <- repeat_app, decimal_app, decimal_zeros, repeat_length, V.
        replace (Z.of_nat (Z.to_nat E + 1)) with (Z.of_nat (Z.to_nat (E + 1))) by lia. lia.
      * unfold power, exponent, exponent_value, fraction. cbn [jexp jfrac length]. lia.
    + intros _. cbn [jexp jfrac]. split; [reflexivity|]. split; [discriminate|]. unfold fraction. cbn [jfrac length]. lia.
  - assert (G : -6 < kk <= 13) by lia. assert (E0 : E < 0) by lia. split; [reflexivity|]. split; [|split; [|intros X; exfalso; apply X, RG, G]].
    + apply XV with 0%nat.
      * unfold digits_value, fraction. cbn [jint jfrac]. rewrite firstn_skipn, V. change (10 ^ Z.of_nat 0) with 1. lia.
      * unfold power, exponent, exponent_value, fraction. cbn [jexp jfrac]. rewrite skipn_length. lia.
    + intros _. cbn [jexp jfrac]. split; [reflexivity|]. split; [discriminate|]. unfold fraction. cbn [jfrac]. rewrite skipn_length. lia.
  - assert (G : -6 < kk <= 13) by lia. split; [reflexivity|]. split; [|split; [|intros X; exfalso; apply X, RG, G]].
    + apply XV with 0%nat.
      * unfold digits_value, fraction. cbn [jint jfrac]. change [CH_0] with (repeat CH_0 1). rewrite app_assoc, <- repeat_app, decimal_app, decimal_zeros, V. change (10 ^ Z.of_nat 0) with 1. lia.
      * unfold power, exponent, exponent_value, fraction. cbn [jexp jfrac]. rewrite app_length, repeat_length. lia.
    + intros _. cbn [jexp jfrac]. split; [reflexivity|]. split; [discriminate|]. unfold fraction. cbn [jfrac]. rewrite app_length, repeat_length. lia.
  - assert (G : ~ (-6 < kk <= 13)) by lia. split; [reflexivity|].
    assert (FR : forall n, jfrac n = (match skipn 1 ds with [] => None | r => Some r end) -> fraction n = skipn 1 ds) by (intros n Q; unfold fraction; rewrite Q; now destruct (skipn 1 ds)).
    match goal with |- _ /\ (_ -> jexp ?n = None /\ _) /\ _ => set (n0 := n); specialize (FR n0 eq_refl) end.
    assert (DV : digits_value n0 = Z.of_N D) by (unfold digits_value; rewrite FR; cbn [jint n0]; now rewrite firstn_skipn).
    split; [|split; [intros X; exfalso; apply G, RG, X|intros _]].
    + apply XV with 0%nat; [rewrite DV; change (10 ^ Z.of_nat 0) with 1; lia|]. unfold power. rewrite FR. unfold exponent, exponent_value. cbn [jexp n0]. rewrite decimal_dec, skipn_length.
      destruct (Z.ltb_spec (kk - 1) 0); lia.
    + split; [discriminate|]. split; [exact DV|]. cbn [jint jfrac n0]. clear n0 FR DV. destruct ds as [|c r]; [congruence|]. cbn [firstn skipn hd length decimal] in *. split; [intros [= X]; now apply L|]. split; [reflexivity|].
      unfold len in *. rewrite Nat2Z.inj_succ in *. destruct r as [|c' r]; split; intros X; try reflexivity; try discriminate.
      * cbn [length] in *. change (10 ^ Z.succ (Z.of_nat 0)) with 10 in L3. lia.
      * exfalso. cbn [length] in *. assert (10 ^ 1 <= 10 ^ (Z.succ (Z.of_nat (S (length r))) - 1)) by (apply Z.pow_le_mono_r; lia). lia.
Qed.
Lemma dec_int_text D : int_text (dec_of_N D).
Proof.
  destruct (N.eq_dec D 0) as [->|H]; [constructor|]. rewrite <- (app_nil_r (dec_of_N D)). apply int_text_lead; [rewrite app_nil_r; apply dec_digits_F|apply dec_of_N_nonnil|now apply dec_of_N_lead].
Qed.
Lemma ryu_shape neg D E : (D <> 0)%N -> let n := ryu_num neg D E in
  int_text (jint n) /\ Forall (fun c => 48 <= c <= 57)%N (fraction n) /\ (forall s t, jexp n = Some (s, t) -> int_text t /\ (s = true <-> exponent n < 0)).
Proof.
  intros H. cbv zeta. unfold ryu_num. pose proof (dec_of_N_nonnil D) as N0. pose proof (dec_of_N_lead D H) as L. pose proof (dec_digits_F D) as F.
  set (ds := dec_of_N D) in *. set (len := Z.of_nat (length ds)) in *. set (kk := len + E).
  assert (FZ : forall n, Forall (fun c => 48 <= c <= 57)%N (repeat CH_0 n)) by (intros n; apply Forall_forall; intros x X; apply repeat_spec in X as ->; unfold CH_0; lia).
  assert (FN : forall n, Forall (fun c => 48 <= c <= 57)%N (firstn n ds) /\ Forall (fun c => 48 <= c <= 57)%N (skipn n ds))
    by (intros n; rewrite <- Forall_app, firstn_skipn; exact F).
  assert (FI : forall n, (0 < n)%nat -> int_text (firstn n ds)).
  { intros n Hn. rewrite <- (app_nil_r (firstn n ds)). apply int_text_lead; [rewrite app_nil_r; apply FN| |]; (destruct ds as [|c r]; [congruence|]); (destruct n as [|n]; [lia|]); [discriminate|exact L]. }
  destruct ((0 <=? E) && (kk <=? 13)) eqn:E1; [|destruct ((0 <? kk) && (kk <=? 13)) eqn:E2; [|destruct ((-6 <? kk) && (kk <=? 0)) eqn:E3]]; cbn [jint jexp]; unfold fraction; cbn [jfrac].
  - split; [|split; [|discriminate]]; [apply int_text_lead; auto; apply Forall_app; auto|apply (FZ 1%nat)].
  - split; [|split; [|discriminate]]; [apply FI; lia|apply FN].
  - split; [|split; [|discriminate]]; [constructor|apply Forall_app; auto].
  - split; [apply FI; lia|]. split; [destruct (FN 1%nat) as [_ S1]; destruct (skipn 1 ds); [constructor|assumption]|].
    intros s t [= <- <-]. split; [apply dec_int_text|]. unfold exponent, exponent_value. cbn [jexp]. rewrite decimal_dec. destruct (Z.ltb_spec (kk - 1) 0); lia.
Qed.
Lemma ryu_decimal neg D E : (D <> 0)%N -> json_decimal neg D E (ryu_num neg D E).
Proof.
  intros H. destruct (ryu_value neg D E H) as (A & B). destruct (ryu_shape neg D E H) as (C & F & G). repeat (split; [assumption|]). exact B.
Qed.

(** ** The written numbers *)
Lemma interval_nonzero f neg m e D E : wide f -> canonical f (FFin neg m e) = true -> nearest f neg (decimal_value D E) (FFin neg m e) -> D <> 0%N.
Proof.
  intros W C N ->. apply nearest_in in N; [|assumption|assumption]. destruct N as [[I _] _]. apply canonical_member in C as [M0 _].
  change (qN 0) with 0%Q in I. rewrite Qmult_0_l in I. assert (0 < low_end f m e)%Q; [|lra]. apply N.le_succ_l, qN_le in M0. change (qN (N.succ 0)) with 1%Q in M0. unfold low_end.
  pose proof (p2_pos (e - 1)). pose proof (p2_pos (e - 2)). destruct (_ && _); nra.
Qed.
Theorem display_shortest neg m e : canonical F64 (FFin neg m e) = true -> exists D E t, shortest_decimal true F64 neg m e D E /\ positional D E t /\
  display_f64 (FFin neg m e) = (if neg then lit "-" else []) ++ t.
Proof.
  intros C. unfold display_f64. cbn [display_float].
  assert (K : forall D E, shortest_decimal true F64 neg m e D E -> exists D1 E1 t, shortest_decimal true F64 neg m e D1 E1 /\ positional D1 E1 t /\
    (if neg then [CH_MINUS] else []) ++ display_dec D E = (if neg then lit "-" else []) ++ t).
  { intros D E S. exists D, E, (display_dec D E). split; [assumption|]. split; [|reflexivity]. apply display_positional. apply (interval_nonzero F64 neg m e D E wide_F64 C). apply S. }
  match goal with |- context [shortest true ?o F64 m e] => set (ok := o) end.
  assert (OKE : shortest true ok F64 m e = shortest true (fun D E => flt_eqb (round_dec F64 false D E) (FFin false m e)) F64 m e).
  { assert (A : forall D E, ok D E = flt_eqb (round_dec F64 false D E) (FFin false m e)) by (intros D E; unfold ok; now rewrite parse_body_display).
    unfold shortest. destruct (ratio_of m e) as [P Q]. generalize (maxdigits F64) as fuel. intros fuel. assert (SS : forall k n, shortest_search true ok P Q k fuel n =
      shortest_search true (fun D E => flt_eqb (round_dec F64 false D E) (FFin false m e)) P Q k fuel n); [|now rewrite SS].
    induction fuel as [|fuel IH]; intros k n; [reflexivity|]. cbn [shortest_search]. destruct (if (0 <=? n - k) then _ else _) as [a b]. cbv zeta.
    match goal with |- context [let '(x, y) := ?t in _] => destruct t as [x y] end. rewrite !A, IH. reflexivity. }
  rewrite OKE. match goal with |- context [shortest true ?o F64 m e] => destruct (shortest true o F64 m e) as [D E] eqn:S end.
  pose proof (search_shortest true F64 neg m e D E enough_F64 C S) as R. destruct (D mod 10 =? 0)%N; now apply K.
Qed.
Theorem e_f32_shortest neg m e : canonical F32 (FFin neg m e) = true -> exists D E n, shortest_decimal false F32 neg m e D E /\ json_decimal neg D E n /\
  e_f32 (FFin neg m e) = JNum n.
Proof.
  intros C. cbn [e_f32]. match goal with |- context [shortest false ?o F32 m e] => destruct (shortest false o F32 m e) as [D E] eqn:S end.
  pose proof (search_shortest false F32 neg m e D E enough_F32 C S) as R.
  destruct (D mod 10 =? 0)%N; eexists _, _, _; (split; [exact R|split; [|reflexivity]]); apply ryu_decimal; exact (interval_nonzero F32 neg m e _ _ wide_F32 C (proj1 R)).
Qed.
