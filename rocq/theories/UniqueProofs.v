(** The shortest decimal of a float is unique, and so are the texts. *)
From Verif Require Import Base Str Dec Flt FltProofs FltCanon FltQ FltGap FltF32 Json SpecJson SpecNumber NumberProofs NumberTextProofs NumberStdProofs ShortestProofs.
From Coq Require Import ZifyNat ZifyN ZifyBool QArith Qabs Qpower Lqa Lia.
Local Open Scope Z_scope.
(** the number is determined by the decimal *)
Lemma value_eq D E D' E' : (decimal_value D E == decimal_value D' E')%Q -> E <= E' -> D = (D' * 10 ^ Z.to_N (E' - E))%N.
Proof.
  intros V LE. apply qN_eq. rewrite !decimal_p10 in V. apply (Qmult_inj_r _ _ (p10 E)); [pose proof (p10_pos E); lra|]. rewrite V, qN_mul, p10_N.
  replace (p10 E') with (p10 (E' - E + E)) by (f_equal; lia). rewrite p10_add. replace (Z.of_N (Z.to_N (E' - E))) with (E' - E) by lia. ring.
Qed.
Lemma exact_digits n n' : (exact_value n == exact_value n')%Q -> power n = power n' -> digits_value n = digits_value n'.
Proof.
  unfold exact_value. intros V P. rewrite P in V. apply Qmult_inj_r in V; [|pose proof (p10_pos (power n')) as X; change p10 with ten in X; lra].
  now apply (proj1 (inject_Z_injective _ _)).
Qed.
Lemma exact_power n n' : digits_value n <> 0 -> (exact_value n == exact_value n')%Q -> digits_value n = digits_value n' -> power n = power n'.
Proof.
  unfold exact_value. intros N V D. rewrite D in *. change ten with p10 in V. apply Qmult_inj_l in V; [|intros X; apply N; now apply (proj1 (inject_Z_injective _ 0))].
  pose proof (p10_pos (power n)). destruct (Z.lt_trichotomy (power n) (power n')) as [X|[X|X]]; [|assumption|]; exfalso; assert (Y : forall a b, a < b -> (p10 a < p10 b)%Q) by
    (intros a b AB; pose proof (p10_le (a + 1) b ltac:(lia)) as Q; rewrite p10_add in Q; change (p10 1) with 10%Q in Q; pose proof (p10_pos a); lra); apply Y in X; lra.
Qed.
Lemma json_unique neg D E n n' : (D <> 0)%N -> json_decimal neg D E n -> json_decimal neg D E n' -> n = n'.
Proof.
  intros D0 (N & I & F & X & V & R & O) (N' & I' & F' & X' & V' & R' & O'). rewrite <- V' in V.
  assert (EQ : jneg n = jneg n' -> jint n = jint n' -> jfrac n = jfrac n' -> jexp n = jexp n' -> n = n') by (destruct n, n'; cbn; congruence).
  destruct (Qlt_le_dec (decimal_value D E) (ten (-6))) as [L|L]; [|destruct (Qlt_le_dec (decimal_value D E) (ten 13)) as [U|U]].
  2:{ destruct (R (conj L U)) as (R1 & R2 & R3). destruct (R' (conj L U)) as (R1' & R2' & R3').
      assert (LE : length (fraction n) = length (fraction n')) by lia.
      assert (P : power n = power n') by (unfold power, exponent; rewrite R1, R1', LE; reflexivity).
      pose proof (exact_digits _ _ V P) as DV. unfold digits_value in DV. rewrite !decimal_app, LE in DV.
      pose proof (decimal_nonneg (fraction n)). pose proof (decimal_nonneg (fraction n')). pose proof (decimal_lt _ F) as B. pose proof (decimal_lt _ F') as B'. rewrite LE in B.
      assert (decimal (jint n) = decimal (jint n')) by nia. apply EQ; [congruence|now apply int_inj| |congruence].
      assert (FE : fraction n = fraction n') by (apply decimal_inj; auto; lia). unfold fraction in FE. destruct (jfrac n), (jfrac n'); congruence. }
  all: assert (OUT : ~ (ten (-6) <= decimal_value D E < ten 13)%Q) by (intros [Y1 Y2]; lra); destruct (O OUT) as (OX & O1 & O2 & O3 & O4), (O' OUT) as (OX' & O1' & O2' & O3' & O4').
  all: assert (DV : digits_value n = digits_value n') by congruence; pose proof (exact_power n n' ltac:(lia) V DV) as P.
  all: assert (LEN : forall x, int_text (jint x) -> Forall (fun c => 48 <= c <= 57)%N (fraction x) -> jint x <> lit "0" -> int_text (jint x ++ fraction x))
         by (intros x [|c d Hc Hd] Fx Nx; [congruence|]; cbn [app]; constructor; [assumption|apply Forall_app; auto]).
  all: pose proof (int_inj _ _ (LEN n I F O2) (LEN n' I' F' O2') DV) as JF.
  all: assert (jint n = jint n' /\ fraction n = fraction n') as [JI FE]
         by (destruct (jint n) as [|c [|]], (jint n') as [|c' [|]]; try discriminate; cbn [app] in JF; injection JF as -> ->; auto).
  all: assert (XE : exponent n = exponent n') by (unfold power in P; rewrite FE in P; lia).
  all: apply EQ; [congruence|assumption| |].
  1,3: unfold fraction in FE; destruct (jfrac n), (jfrac n'); try congruence; exfalso;
       (assert (Y : None = None :> option str) by reflexivity); (destruct O4 as [O4a O4b]; destruct O4' as [O4a' O4b']; first [specialize (O4a eq_refl); apply O4b' in O4a; discriminate | specialize (O4a' eq_refl); apply O4b in O4a'; discriminate]).
  1,2: destruct (jexp n) as [[s t]|] eqn:EN; [|congruence]; destruct (jexp n') as [[s' t']|] eqn:EN'; [|congruence]; destruct (X _ _ eq_refl) as [T S], (X' _ _ eq_refl) as [T' S'];
       (assert (SS : s = s') by (rewrite XE in S; destruct s, s'; intuition congruence)); subst s'; rewrite (int_inj t t' T T'); [reflexivity|];
       unfold exponent in XE; rewrite EN, EN' in XE; cbn [exponent_value] in XE; destruct s; lia.
Qed.

(** ** The decimal *)
(** between two different decimals, both even multiples of the smaller power of ten, there is one that is as short *)
Lemma between D E D' E' : D <> 0%N -> E <= E' -> N.even D = true -> (E = E' -> N.even D' = true) -> ~ (decimal_value D' E' == decimal_value D E)%Q ->
  exists M, no_longer M D /\ ((decimal_value D E < decimal_value M E < decimal_value D' E')%Q \/ (decimal_value D' E' < decimal_value M E < decimal_value D E)%Q).
Proof.
  intros D0 LE ED ED' NE. set (A := (D' * 10 ^ Z.to_N (E' - E))%N).
  assert (VA : (decimal_value D' E' == decimal_value A E)%Q).
  { rewrite !decimal_p10. unfold A. rewrite qN_mul, p10_N. replace (Z.of_N (Z.to_N (E' - E))) with (E' - E) by lia. replace (p10 E') with (p10 (E' - E + E)) by (f_equal; lia). rewrite p10_add. ring. }
  assert (EA : N.even A = true).
  { unfold A. rewrite N.even_mul. destruct (Z.eq_dec E E') as [X|X]; [now rewrite (ED' X)|]. rewrite N.even_pow by lia. apply orb_true_r. }
  assert (AD : A <> D) by (intros X; apply NE; rewrite VA, X; reflexivity).
  assert (LT : forall a b, (a < b)%N -> (decimal_value a E < decimal_value b E)%Q).
  { intros a b H. rewrite !decimal_p10. apply Qmult_lt_compat_r; [apply p10_pos|now apply qN_lt]. }
  clearbody A. apply N.even_spec in ED as [u Hu]. apply N.even_spec in EA as [w Hw]. destruct (N.lt_ge_cases D A) as [H|H].
  - exists (D + 1)%N. split.
    + intros k K. destruct (N.eq_dec (D + 1) (10 ^ k)) as [X|X]; [exfalso|lia]. destruct (N.eq_dec k 0) as [->|K0]; [change (10 ^ 0)%N with 1%N in X; lia|].
      assert (Y : N.even (10 ^ k) = true) by now rewrite N.even_pow. rewrite <- X in Y. apply N.even_spec in Y as [y Y]. lia.
    + left. rewrite VA. split; apply LT; lia.
  - exists (D - 1)%N. split; [intros k K; lia|]. right. rewrite VA. split; apply LT; lia.
Qed.
Lemma inside f neg m e D E D' E' M F : enough f -> canonical f (FFin neg m e) = true ->
  nearest f neg (decimal_value D E) (FFin neg m e) -> nearest f neg (decimal_value D' E') (FFin neg m e) ->
  (decimal_value D E < decimal_value M F < decimal_value D' E')%Q -> nearest f neg (decimal_value M F) (FFin neg m e).
Proof.
  intros EN C N N' [L U]. pose proof (proj1 EN) as W. apply nearest_in in N, N'; auto. apply nearest_in; auto. rewrite !decimal_p10 in *. apply (convex f m e _ _ _ N N'); lra.
Qed.
Theorem shortest_unique up f neg m e D E D' E' : enough f -> canonical f (FFin neg m e) = true ->
  shortest_decimal up f neg m e D E -> shortest_decimal up f neg m e D' E' -> D = D' /\ E = E'.
Proof.
  intros EN C [N S] [N' S']. pose proof (interval_nonzero f neg m e D E (proj1 EN) C N) as D0. pose proof (interval_nonzero f neg m e D' E' (proj1 EN) C N') as D0'.
  destruct (S _ _ N') as [L T], (S' _ _ N) as [L' T']. destruct (T L') as [A Q], (T' L) as [A' Q'].
  assert (EQ : (Qabs (decimal_value D E - binary m e) == Qabs (decimal_value D' E' - binary m e))%Q) by (apply Qle_antisym; assumption).
  specialize (Q EQ). specialize (Q' (Qeq_sym _ _ EQ)).
  assert (STRIP : forall a Ea b Eb, a <> 0%N -> no_longer a b -> (decimal_value a Ea == decimal_value b Eb)%Q -> Ea <= Eb -> a = b /\ Ea = Eb).
  { intros a Ea b Eb a0 NL V LE. pose proof (value_eq _ _ _ _ V LE) as X. destruct (Z.eq_dec Ea Eb) as [->|NE]; [rewrite Z.sub_diag in X; change (10 ^ Z.to_N 0)%N with 1%N in X; lia|exfalso].
    assert (P : (10 ^ Z.to_N (Eb - Ea) = 10 * 10 ^ Z.to_N (Eb - Ea - 1))%N) by (replace (Z.to_N (Eb - Ea)) with (N.succ (Z.to_N (Eb - Ea - 1))) by lia; apply N.pow_succ_r').
    assert (1 <= 10 ^ Z.to_N (Eb - Ea - 1))%N by (pose proof (N.pow_nonzero 10 (Z.to_N (Eb - Ea - 1)) ltac:(lia)); lia). assert (B10 : (10 * b <= a)%N) by nia.
    pose proof (dec_length b ltac:(lia)) as (l1 & l2 & l3). set (l := Z.of_nat (length (dec_of_N b))) in *.
    assert (K : (a < 10 ^ Z.to_N l)%N). { apply NL. apply N2Z.inj_lt. rewrite N2Z.inj_pow, Z2N.id by lia. exact l3. }
    apply N2Z.inj_lt in K. rewrite N2Z.inj_pow, Z2N.id in K by lia. change (Z.of_N 10) with 10 in K. replace l with (Z.succ (l - 1)) in K by lia. rewrite Z.pow_succ_r in K by lia. lia. }
  assert (V : (decimal_value D E == decimal_value D' E')%Q).
  2:{ destruct (Z.le_ge_cases E E') as [LE|LE]; [now apply STRIP|]. destruct (STRIP D' E' D E D0' L' (Qeq_sym _ _ V) LE). auto. }
  destruct (Qeq_dec (decimal_value D E) (decimal_value D' E')) as [V|V]; [assumption|exfalso].
  destruct Q as [Q|Q]; [apply V; now symmetry|]. destruct Q' as [Q'|Q']; [apply V; assumption|]. unfold preferred in Q, Q'. destruct up.
  { apply V. apply Qle_antisym; assumption. }
  assert (GO : forall a Ea b Eb, a <> 0%N -> nearest f neg (decimal_value a Ea) (FFin neg m e) -> nearest f neg (decimal_value b Eb) (FFin neg m e) ->
    (forall c F, nearest f neg (decimal_value c F) (FFin neg m e) -> no_longer c a -> (Qabs (decimal_value a Ea - binary m e) <= Qabs (decimal_value c F - binary m e))%Q) ->
    (Qabs (decimal_value a Ea - binary m e) == Qabs (decimal_value b Eb - binary m e))%Q ->
    Ea <= Eb -> N.even a = true -> (Ea = Eb -> N.even b = true) -> ~ (decimal_value b Eb == decimal_value a Ea)%Q -> False).
  { intros a Ea b Eb a0 Na Nb BEST SAME LE Ev Ev' NE. destruct (between a Ea b Eb a0 LE Ev Ev' NE) as (c & NL & BT).
    assert (Nc : nearest f neg (decimal_value c Ea) (FFin neg m e)) by (destruct BT as [BT|BT]; eapply inside; [| |exact Na|exact Nb| | | |exact Nb|exact Na|]; eauto).
    specialize (BEST _ _ Nc NL). set (x := binary m e) in *. set (va := decimal_value a Ea) in *. set (vb := decimal_value b Eb) in *. set (vc := decimal_value c Ea) in *. clearbody x va vb vc.
    revert BEST SAME. repeat apply Qabs_case; intros; destruct BT as [BT|BT]; lra. }
  destruct (Z.le_ge_cases E E') as [LE|LE].
  - apply (GO D E D' E'); auto; [|intros <-; apply Q'; lia|intros X; apply V; now symmetry]. intros c F Nc NL. now apply (S c F Nc).
  - apply (GO D' E' D E); auto; [|now symmetry|intros <-; apply Q; lia]. intros c F Nc NL. now apply (S' c F Nc).
Qed.
