(** Every decimal D * 10^E with D < 2^25 + 1024 is a midpoint of the f32 format, or further than
    5 * 2^-54 (relative) from all of them, up to five exceptions. *)
From Verif Require Import Base Dec Flt FltProofs FltQ FltGapData.
From Coq Require Import ZifyNat ZifyN ZifyBool QArith Qpower Qfield Lqa.
Local Open Scope Z_scope.

Definition DMAX : Z := 2 ^ 25 + 1024.
Definition MMAX : Z := 2 ^ 25.
Definition TWO54 : Z := 2 ^ 54.
(** 10^E / 2^f = cnum E f / cden E f *)
Definition cnum (E f : Z) : Z := 5 ^ Z.max E 0 * 2 ^ Z.max (E - f) 0.
Definition cden (E f : Z) : Z := 5 ^ Z.max (- E) 0 * 2 ^ Z.max (f - E) 0.
Definition is_exc (D E : Z) : bool := existsb (fun x => (fst x =? D) && (snd x =? E)) gap_exceptions.
Definition exc_ok (E p q : Z) : bool :=
  (0 <? p) && (0 <? q) && (10 * q * MMAX <? TWO54) && ((MMAX <=? 4 * p) || (DMAX <=? 4 * q)) &&
  forallb (fun j => is_exc (j * q) E || (DMAX <=? j * q) || (MMAX <=? j * p)) [1; 2; 3].
Definition check_cert (E f : Z) (c : cert) : bool :=
  let num := cnum E f in
  let den := cden E f in
  match c with
  | CG => (5 * DMAX * num <? TWO54) || (10 * MMAX * den <? TWO54)
  | CF p q p' q' =>
    (0 <=? p) && (0 <? q) && (0 <=? p') && (0 <=? q') && (p' * q - p * q' =? 1) &&
    ((DMAX <=? q + q') || (MMAX <=? p + p')) &&
    (let a := q * num in let x := a - p * den in (0 <=? x) && ((5 * a <? TWO54 * x) || exc_ok E p q)) &&
    (let a := q' * num in let x := p' * den - a in (0 <=? x) && ((5 * a <? TWO54 * x) || exc_ok E p' q'))
  end.

Lemma cnum_pos E f : 0 < cnum E f.
Proof. unfold cnum. apply Z.mul_pos_pos; apply Z.pow_pos_nonneg; lia. Qed.
Lemma cden_pos E f : 0 < cden E f.
Proof. unfold cden. apply Z.mul_pos_pos; apply Z.pow_pos_nonneg; lia. Qed.

Lemma exc_ok_mult E p q j : exc_ok E p q = true -> 0 < j -> j * q < DMAX -> j * p < MMAX -> is_exc (j * q) E = true.
Proof.
  unfold exc_ok. rewrite !andb_true_iff. intros ((((A1 & A2) & A3) & A4) & A5) Hj H1 H2. cbn [forallb] in A5.
  rewrite !andb_true_iff in A5. destruct A5 as (B1 & B2 & B3 & _).
  assert (J : j = 1 \/ j = 2 \/ j = 3 \/ 4 <= j) by lia. destruct J as [->|[->|[->|J]]].
  - destruct (is_exc (1 * q) E); auto. lia.
  - destruct (is_exc (2 * q) E); auto. lia.
  - destruct (is_exc (3 * q) E); auto. lia.
  - exfalso. apply orb_prop in A4 as [A4|A4]; nia.
Qed.

Lemma mul_ge_1 a u : 0 <= a -> 1 <= u -> a <= a * u.
Proof. intros A U. rewrite <- (Z.mul_1_r a) at 1. now apply Z.mul_le_mono_nonneg_l. Qed.
Lemma pos_factor q g d : 0 < q -> 0 < d -> d <= q * g -> 0 < g.
Proof. intros Q Hd L. apply Z.nle_gt. intros C. assert (q * g <= 0) by (apply Z.mul_nonneg_nonpos; lia). lia. Qed.
Lemma too_close q den a b g : 0 < q -> 0 < den -> 10 * q * MMAX < TWO54 -> b <= MMAX * den -> a <= 2 * b ->
  den <= q * g -> TWO54 * g <= 5 * a -> False.
Proof.
  intros Q Hd K Hb Ha Hg L. assert (T : 0 < TWO54) by reflexivity.
  assert (L1 : TWO54 * den <= TWO54 * (q * g)) by (apply Z.mul_le_mono_nonneg_l; lia).
  assert (L2 : q * (TWO54 * g) <= q * (10 * (MMAX * den))) by (apply Z.mul_le_mono_nonneg_l; lia).
  assert (L3 : 10 * q * MMAX * den < TWO54 * den) by (apply Z.mul_lt_mono_pos_r; auto).
  replace (TWO54 * (q * g)) with (q * (TWO54 * g)) in L1 by ring.
  replace (q * (10 * (MMAX * den))) with (10 * q * MMAX * den) in L2 by ring. lia.
Qed.
Lemma check_cert_ok E f c D M : check_cert E f c = true -> 0 < D < DMAX -> 0 <= M < MMAX -> is_exc D E = false ->
  D * cnum E f = M * cden E f \/ 5 * (D * cnum E f) < TWO54 * Z.abs (D * cnum E f - M * cden E f).
Proof.
  unfold check_cert. pose proof (cnum_pos E f) as N0. pose proof (cden_pos E f) as D0. set (num := cnum E f) in *. set (den := cden E f) in *.
  clearbody num den. assert (T : TWO54 = 18014398509481984) by reflexivity.
  destruct c as [|p q p' q']; intros C HD HM X.
  - destruct (Z.eq_dec (D * num) (M * den)) as [|Ne]; [now left|right]. apply orb_prop in C as [C|C].
    + apply Z.ltb_lt in C. assert (5 * (D * num) <= 5 * DMAX * num) by nia. assert (1 <= Z.abs (D * num - M * den)) by lia. nia.
    + apply Z.ltb_lt in C. apply Z.nle_gt. intros L. set (a := D * num) in *. set (b := M * den) in *.
      assert (b * 10 < TWO54) by (unfold b; nia). clearbody a b. lia.
  - cbv zeta in C. rewrite !andb_true_iff, !Z.leb_le, Z.ltb_lt, Z.eqb_eq in C.
    destruct C as (((((((C1 & C2) & C3) & C4) & C5) & C6) & (C7 & C8)) & (C9 & C10)).
    assert (S : M * q <= p * D \/ p' * D <= M * q').
    { destruct (Z.le_gt_cases (M * q) (p * D)) as [|S1]; [now left|]. destruct (Z.le_gt_cases (p' * D) (M * q')) as [|S2]; [now right|]. exfalso.
      set (u := p' * D - M * q') in *. set (v := M * q - p * D) in *.
      assert (1 <= u) by lia. assert (1 <= v) by lia.
      assert (E1 : D = q * u + q' * v). { unfold u, v. transitivity (D * (p' * q - p * q')); [rewrite C5|]; ring. }
      assert (E2 : M = p * u + p' * v). { unfold u, v. transitivity (M * (p' * q - p * q')); [rewrite C5|]; ring. }
      clearbody u v. pose proof (mul_ge_1 q u ltac:(lia) H). pose proof (mul_ge_1 q' v C4 H0).
      pose proof (mul_ge_1 p u C1 H). pose proof (mul_ge_1 p' v C3 H0). apply orb_prop in C6 as [C6|C6]; apply Z.leb_le in C6; lia. }
    destruct S as [S|S].
    + apply orb_prop in C8 as [C8|C8].
      * right. apply Z.ltb_lt in C8.
        assert (S' : D * (q * num - p * den) <= q * (D * num - M * den)) by nia.
        assert (L : q * (5 * (D * num)) < q * (TWO54 * (D * num - M * den))).
        { apply Z.lt_le_trans with (D * (TWO54 * (q * num - p * den))); [nia|]. rewrite T. nia. }
        apply Z.mul_lt_mono_pos_l in L; auto. lia.
      * destruct (Z.eq_dec (M * q) (p * D)) as [Eq|Ne].
        { exfalso. set (j := p' * D - q' * M).
          assert (E1 : D = j * q). { unfold j. transitivity (D * (p' * q - p * q')); [rewrite C5; ring|]. transitivity (p' * D * q - q' * (p * D)); [ring|]. rewrite <- Eq. ring. }
          assert (E2 : M = j * p). { unfold j. transitivity (M * (p' * q - p * q')); [rewrite C5; ring|]. transitivity (p' * (M * q) - p * q' * M); [ring|]. rewrite Eq. ring. }
          assert (0 < j) by nia. rewrite E1 in X. rewrite exc_ok_mult with (p := p) in X; auto; [discriminate|lia|lia]. }
        right. apply Z.nle_gt. intros L.
        assert (G : den <= q * (D * num - M * den)).
        { replace (q * (D * num - M * den)) with (D * (q * num - p * den) + den * (p * D - M * q)) by ring.
          pose proof (mul_ge_1 den (p * D - M * q) ltac:(lia) ltac:(lia)). assert (0 <= D * (q * num - p * den)) by (apply Z.mul_nonneg_nonneg; lia). lia. }
        unfold exc_ok in C8. rewrite !andb_true_iff, !Z.ltb_lt in C8. destruct C8 as ((((_ & _) & A3) & _) & _).
        pose proof (pos_factor _ _ _ C2 D0 G) as P0. rewrite Z.abs_eq in L by lia.
        apply (too_close q den (D * num) (M * den) (D * num - M * den)); auto; [apply Z.mul_le_mono_nonneg_r; lia|lia].
    + apply orb_prop in C10 as [C10|C10].
      * right. apply Z.ltb_lt in C10. assert (Q0 : 0 < q') by nia.
        assert (S' : D * (p' * den - q' * num) <= q' * (M * den - D * num)) by nia.
        assert (L : q' * (5 * (D * num)) < q' * (TWO54 * (M * den - D * num))).
        { apply Z.lt_le_trans with (D * (TWO54 * (p' * den - q' * num))); [nia|]. rewrite T. nia. }
        apply Z.mul_lt_mono_pos_l in L; auto. lia.
      * destruct (Z.eq_dec (M * q') (p' * D)) as [Eq|Ne].
        { exfalso. set (j := q * M - p * D).
          assert (E1 : D = j * q'). { unfold j. transitivity (D * (p' * q - p * q')); [rewrite C5; ring|]. transitivity ((p' * D) * q - p * q' * D); [ring|]. rewrite <- Eq. ring. }
          assert (E2 : M = j * p'). { unfold j. transitivity (M * (p' * q - p * q')); [rewrite C5; ring|]. transitivity (p' * q * M - p * (M * q')); [ring|]. rewrite Eq. ring. }
          assert (0 < j) by nia. rewrite E1 in X. rewrite exc_ok_mult with (p := p') in X; auto; [discriminate|lia|lia]. }
        right. apply Z.nle_gt. intros L.
        assert (G : den <= q' * (M * den - D * num)).
        { replace (q' * (M * den - D * num)) with (D * (p' * den - q' * num) + den * (M * q' - p' * D)) by ring.
          pose proof (mul_ge_1 den (M * q' - p' * D) ltac:(lia) ltac:(lia)). assert (0 <= D * (p' * den - q' * num)) by (apply Z.mul_nonneg_nonneg; lia). lia. }
        unfold exc_ok in C10. rewrite !andb_true_iff, !Z.ltb_lt in C10. destruct C10 as ((((_ & A2) & A3) & _) & _).
        pose proof (pos_factor _ _ _ A2 D0 G) as P0. rewrite Z.abs_neq in L by lia. replace (- (D * num - M * den)) with (M * den - D * num) in L by lia.
        assert (0 <= M * den) by (apply Z.mul_nonneg_nonneg; lia).
        apply (too_close q' den (D * num) (M * den) (M * den - D * num)); auto; [apply Z.mul_le_mono_nonneg_r; lia|lia].
Qed.

Fixpoint check_certs (E f : Z) (cs : list cert) : bool :=
  match cs with [] => true | c :: r => check_cert E f c && check_certs E (f + 1) r end.
Definition check_row (row : Z * Z * list cert) : bool :=
  let '(E, f0, cs) := row in
  let fn := f0 + Z.of_nat (length cs) in
  ((f0 =? -150) || (2 ^ 25 * cden E f0 <=? cnum E f0)) && (-150 <? fn) &&
  ((fn =? 104) || (2 * DMAX * cnum E fn <=? 2 ^ 24 * cden E fn)) && check_certs E f0 cs.
Definition row_of (E : Z) : option (Z * Z * list cert) := find (fun row => fst (fst row) =? E) gap_rows.

Lemma rows_ok : forallb check_row gap_rows = true.
Proof. vm_compute. reflexivity. Qed.

Local Open Scope Q_scope.
Definition p10 (E : Z) : Q := 10 ^ E.
Lemma p10_pos E : 0 < p10 E.
Proof. now apply Qpower_0_lt. Qed.
Lemma p10_add a b : p10 (a + b) == p10 a * p10 b.
Proof. unfold p10. apply Qpower_plus. discriminate. Qed.
Lemma p10_N k : qN (10 ^ k) == p10 (Z.of_N k).
Proof. unfold qN, p10. rewrite N2Z.inj_pow. rewrite Zpower_Qpower by lia. reflexivity. Qed.
Lemma pow_split (b x : Z) : (0 < b)%Z -> inject_Z b ^ x * inject_Z (b ^ Z.max (- x) 0) == inject_Z (b ^ Z.max x 0).
Proof.
  intros Hb. rewrite !Zpower_Qpower by lia. rewrite <- Qpower_plus.
  - now replace (x + Z.max (- x) 0)%Z with (Z.max x 0) by lia.
  - intros H. apply (inject_Z_injective b 0) in H. lia.
Qed.
Lemma ten_two E f : p10 E * inject_Z (cden E f) == inject_Z (cnum E f) * p2 f.
Proof.
  unfold p10, cnum, cden. rewrite !inject_Z_mult.
  rewrite <- (pow_split 5 E), <- (pow_split 2 (E - f)) by lia.
  replace (- (E - f))%Z with (f - E)%Z by lia.
  assert (T : (10 : Q) ^ E == inject_Z 5 ^ E * (inject_Z 2 ^ (E - f) * p2 f)).
  { unfold p2. change (2 : Q) with (inject_Z 2). rewrite <- Qpower_plus by discriminate.
    replace (E - f + f)%Z with E by lia. rewrite <- Qmult_power. reflexivity. }
  rewrite T. ring.
Qed.
(** gap as a statement on values *)
Definition gap (z u : Q) : Prop := z == u \/ 5 * z < inject_Z TWO54 * (z - u) \/ 5 * z < inject_Z TWO54 * (u - z).
Lemma gap_scale E f D M : ((D * cnum E f)%Z = (M * cden E f)%Z \/ (5 * (D * cnum E f) < TWO54 * Z.abs (D * cnum E f - M * cden E f))%Z) ->
  gap (inject_Z D * p10 E) (inject_Z M * p2 f).
Proof.
  intros H. pose proof (ten_two E f) as T. pose proof (p2_pos f) as P.
  assert (Dn : 0 < inject_Z (cden E f)). { change 0 with (inject_Z 0). rewrite <- Zlt_Qlt. apply cden_pos. }
  set (den := inject_Z (cden E f)) in *. set (num := inject_Z (cnum E f)) in *.
  assert (Z1 : inject_Z D * p10 E == (inject_Z D * num) * (p2 f / den)).
  { assert (X : p10 E == num * p2 f / den). { rewrite <- T. field. lra. } rewrite X. field. lra. }
  assert (Z2 : inject_Z M * p2 f == (inject_Z M * den) * (p2 f / den)) by (field; lra).
  assert (K : 0 < p2 f / den) by (apply Qlt_shift_div_l; lra). set (k := p2 f / den) in *.
  unfold gap. rewrite Z1, Z2. unfold num, den. rewrite <- !inject_Z_mult. destruct H as [H|H].
  - left. now rewrite H.
  - right. set (a := (D * cnum E f)%Z) in *. set (b := (M * cden E f)%Z) in *.
    destruct (Z.abs_spec (a - b)) as [[_ A]|[_ A]]; rewrite A in H; rewrite Zlt_Qlt, !inject_Z_mult in H; [left|right].
    + unfold Zminus in H. rewrite inject_Z_plus, inject_Z_opp in H. change (inject_Z 5) with 5 in H.
      apply Qmult_lt_r with (z := k) in H; auto. lra.
    + unfold Zminus in H. rewrite inject_Z_opp, inject_Z_plus, inject_Z_opp in H. change (inject_Z 5) with 5 in H.
      apply Qmult_lt_r with (z := k) in H; auto. lra.
Qed.

Lemma check_certs_nth E f0 cs f : check_certs E f0 cs = true -> (f0 <= f < f0 + Z.of_nat (length cs))%Z -> exists c, check_cert E f c = true.
Proof.
  revert f0; induction cs as [|c cs IH]; intros f0 C H; cbn [length] in H; [lia|].
  cbn [check_certs] in C. apply andb_prop in C as [C1 C2]. destruct (Z.eq_dec f f0) as [->|N]; [eauto|].
  apply (IH _ C2). lia.
Qed.
Lemma row_exists E : (-53 <= E <= 38)%Z -> exists f0 cs, check_row (E, f0, cs) = true.
Proof.
  intros H. assert (R : forall k, (k < 92)%nat -> existsb (fun row => (fst (fst row) =? Z.of_nat k - 53)%Z) gap_rows = true).
  { assert (A : forallb (fun k => existsb (fun row => (fst (fst row) =? Z.of_nat k - 53)%Z) gap_rows) (seq 0 92) = true) by (vm_compute; reflexivity).
    intros k Hk. rewrite forallb_forall in A. apply A. apply in_seq. lia. }
  specialize (R (Z.to_nat (E + 53)) ltac:(lia)). apply existsb_exists in R as ([[E' f0] cs] & In1 & Eq).
  cbn [fst] in Eq. apply Z.eqb_eq in Eq. replace (Z.of_nat (Z.to_nat (E + 53)) - 53)%Z with E in Eq by lia. subst E'. exists f0, cs.
  pose proof rows_ok as A. rewrite forallb_forall in A. exact (A _ In1).
Qed.
Lemma row_gap E f D M : (-53 <= E <= 38)%Z -> (-150 <= f <= 103)%Z -> (0 < D < DMAX)%Z -> (0 <= M < MMAX)%Z ->
  (2 ^ 24 <= M)%Z \/ f = (-150)%Z -> is_exc D E = false -> gap (inject_Z D * p10 E) (inject_Z M * p2 f).
Proof.
  intros HE Hf HD HM Hn X. destruct (row_exists E HE) as (f0 & cs & R). unfold check_row in R. cbv zeta in R.
  rewrite !andb_true_iff in R. destruct R as (((R1 & R2) & R3) & R4). set (fn := (f0 + Z.of_nat (length cs))%Z) in *.
  destruct (Z.lt_ge_cases f f0) as [L|L]; [|destruct (Z.lt_ge_cases f fn) as [U|U]].
  - (* far below *)
    apply orb_prop in R1 as [R1|R1]; [apply Z.eqb_eq in R1; lia|]. apply Z.leb_le in R1.
    unfold gap. right. left.
    assert (B : inject_Z MMAX * p2 f0 <= p10 E).
    { pose proof (ten_two E f0) as T. pose proof (p2_pos f0).
      assert (Dn : 0 < inject_Z (cden E f0)). { change 0 with (inject_Z 0). rewrite <- Zlt_Qlt. apply cden_pos. }
      apply Qmult_lt_0_le_reg_r with (inject_Z (cden E f0)); auto. rewrite T.
      rewrite Zle_Qle, inject_Z_mult in R1. change (inject_Z (2 ^ 25)) with (inject_Z MMAX) in R1. nra. }
    assert (B2 : p2 f * 2 <= p2 f0). { rewrite (p2_half f0). assert (p2 f <= p2 (f0 - 1)) by (apply p2_le; lia). lra. }
    destruct HD as [HD _]. destruct HM as [HM0 HM]. assert (HD1 : (1 <= D)%Z) by lia. rewrite Zle_Qle in HD1, HM0. rewrite Zlt_Qlt in HM.
    change (inject_Z 1) with 1 in HD1. change (inject_Z 0) with 0 in HM0. change (inject_Z TWO54) with 18014398509481984.
    pose proof (p2_pos f). pose proof (p10_pos E). set (d := inject_Z D) in *. set (m := inject_Z M) in *. set (t := inject_Z MMAX) in *.
    assert (Z1 : p10 E <= d * p10 E) by nra. assert (Z2 : m * p2 f <= t * p2 f) by nra. assert (Z3 : t * p2 f * 2 <= t * p2 f0) by nra. lra.
  - destruct (check_certs_nth E f0 cs f R4 ltac:(lia)) as [c C]. apply gap_scale. now apply check_cert_ok with c.
  - apply orb_prop in R3 as [R3|R3]; [apply Z.eqb_eq in R3; lia|]. apply Z.leb_le in R3. apply Z.ltb_lt in R2.
    destruct Hn as [Hn| ->]; [|lia]. unfold gap. right. right.
    assert (B : 2 * inject_Z DMAX * p10 E <= inject_Z (2 ^ 24) * p2 fn).
    { pose proof (ten_two E fn) as T. pose proof (p2_pos fn).
      assert (Dn : 0 < inject_Z (cden E fn)). { change 0 with (inject_Z 0). rewrite <- Zlt_Qlt. apply cden_pos. }
      apply Qmult_lt_0_le_reg_r with (inject_Z (cden E fn)); auto.
      assert (Y : 2 * inject_Z DMAX * p10 E * inject_Z (cden E fn) == 2 * inject_Z DMAX * inject_Z (cnum E fn) * p2 fn) by (rewrite <- Qmult_assoc, T; ring).
      rewrite Y. rewrite Zle_Qle, !inject_Z_mult in R3. change (inject_Z 2) with 2 in R3. nra. }
    assert (B2 : p2 fn <= p2 f) by (apply p2_le; lia).
    destruct HD as [HD HD2]. destruct HM as [_ HM]. rewrite Zle_Qle in Hn. rewrite Zlt_Qlt in HD, HD2.
    change (inject_Z 0) with 0 in HD. change (inject_Z TWO54) with 18014398509481984. change (inject_Z (2 ^ 24)) with 16777216 in *.
    pose proof (p2_pos f). pose proof (p10_pos E). set (d := inject_Z D) in *. set (m := inject_Z M) in *. set (t := inject_Z DMAX) in *.
    assert (Z1 : d * p10 E <= t * p10 E) by nra. assert (Z2 : 16777216 * p2 f <= m * p2 f) by nra.
    assert (Z0 : 0 < d * p10 E) by nra. lra.
Qed.
