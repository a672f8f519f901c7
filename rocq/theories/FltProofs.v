(** Printing a float and parsing the text gives the float back, for every value. *)
From Verif Require Import Base Str Dec Flt.
From Coq Require Import ZifyNat ZifyN ZifyBool.

Lemma pow2_pos n : 0 < 2 ^ n.
Proof. apply N.neq_0_lt_0. apply N.pow_nonzero. lia. Qed.
Lemma pow10_pos n : 0 < 10 ^ n.
Proof. apply N.neq_0_lt_0. apply N.pow_nonzero. lia. Qed.
Lemma pow5_pos n : 0 < 5 ^ n.
Proof. apply N.neq_0_lt_0. apply N.pow_nonzero. lia. Qed.

(** Q * 2^p <= P, with any common scaling K *)
Definition ge2 (P Q : N) (p : Z) : bool := let '(n, d) := scale2 P Q p in d <=? n.
Lemma ge2_scale P Q p K : (0 <= p + Z.of_N K)%Z ->
  ge2 P Q p = (Q * 2 ^ Z.to_N (p + Z.of_N K) <=? P * 2 ^ K).
Proof.
  intros H. unfold ge2, scale2. destruct (Z.leb_spec 0 p).
  - replace (Z.to_N (p + Z.of_N K)) with (Z.to_N p + K) by lia.
    rewrite N.pow_add_r, N.mul_assoc. pose proof (pow2_pos K).
    apply eq_true_iff_eq. rewrite !N.leb_le. apply N.mul_le_mono_pos_r. auto.
  - replace K with (Z.to_N (- p) + Z.to_N (p + Z.of_N K)) at 2 by lia.
    rewrite N.pow_add_r, N.mul_assoc. pose proof (pow2_pos (Z.to_N (p + Z.of_N K))).
    apply eq_true_iff_eq. rewrite !N.leb_le. apply N.mul_le_mono_pos_r. auto.
Qed.
Lemma scale2_exact P Q e m K : (let '(n, d) := scale2 P Q e in n = m * d) ->
  (0 <= e + Z.of_N K)%Z -> P * 2 ^ K = m * Q * 2 ^ Z.to_N (e + Z.of_N K).
Proof.
  unfold scale2. destruct (Z.leb_spec 0 e); intros Hx HK.
  - subst P. replace (Z.to_N (e + Z.of_N K)) with (Z.to_N e + K) by lia.
    rewrite N.pow_add_r. ring.
  - replace K with (Z.to_N (- e) + Z.to_N (e + Z.of_N K)) at 1 by lia.
    rewrite N.pow_add_r, N.mul_assoc, Hx. reflexivity.
Qed.
Lemma le_log2 a x : 0 < x -> (2 ^ a <=? x) = (a <=? N.log2 x).
Proof. intros H. apply eq_true_iff_eq. rewrite !N.leb_le. apply N.log2_le_pow2. auto. Qed.

Lemma fl2_exact P Q e m : 0 < Q -> 0 < m -> (let '(n, d) := scale2 P Q e in n = m * d) ->
  fl2 P Q = (Z.of_N (N.log2 m) + e)%Z.
Proof.
  intros HQ Hm Hx.
  set (p0 := (Z.of_N (N.log2 P) - Z.of_N (N.log2 Q))%Z).
  set (K := Z.to_N (Z.abs e + Z.abs p0 + 2)).
  assert (HK : (Z.of_N K = Z.abs e + Z.abs p0 + 2)%Z) by lia.
  pose proof (scale2_exact P Q e m K Hx ltac:(lia)) as HE.
  assert (HP : 0 < P).
  { destruct (N.eq_dec P 0); [|lia]. subst P. rewrite N.mul_0_l in HE.
    symmetry in HE. apply N.eq_mul_0 in HE as [HE|HE].
    - apply N.eq_mul_0 in HE. lia.
    - apply N.pow_nonzero in HE; [tauto|lia]. }
  assert (GE : forall p, (- Z.of_N K <= p)%Z -> ge2 P Q p = (p <=? Z.of_N (N.log2 m) + e)%Z).
  { intros p Hp. rewrite (ge2_scale P Q p K) by lia. rewrite HE.
    replace (m * Q * 2 ^ Z.to_N (e + Z.of_N K)) with (Q * (m * 2 ^ Z.to_N (e + Z.of_N K))) by ring.
    replace (Q * 2 ^ Z.to_N (p + Z.of_N K) <=? Q * (m * 2 ^ Z.to_N (e + Z.of_N K)))
      with (2 ^ Z.to_N (p + Z.of_N K) <=? m * 2 ^ Z.to_N (e + Z.of_N K)).
    2:{ apply eq_true_iff_eq. rewrite !N.leb_le. apply N.mul_le_mono_pos_l. auto. }
    rewrite le_log2 by (apply N.mul_pos_pos; auto; apply pow2_pos).
    rewrite N.log2_mul_pow2 by lia.
    apply eq_true_iff_eq. rewrite N.leb_le, Z.leb_le. lia. }
  assert (G1 : ge2 P Q (p0 - 1) = true).
  { rewrite (ge2_scale P Q _ K) by lia. apply N.leb_le.
    destruct (N.log2_spec P HP) as [L1 _]. destruct (N.log2_spec Q HQ) as [_ L2].
    apply N.le_trans with (2 ^ N.succ (N.log2 Q) * 2 ^ Z.to_N (p0 - 1 + Z.of_N K)).
    - apply N.mul_le_mono_r. lia.
    - rewrite <- N.pow_add_r.
      replace (N.succ (N.log2 Q) + Z.to_N (p0 - 1 + Z.of_N K)) with (N.log2 P + K) by lia.
      rewrite N.pow_add_r. apply N.mul_le_mono_r. auto. }
  assert (G2 : ge2 P Q (p0 + 1) = false).
  { rewrite (ge2_scale P Q _ K) by lia. apply N.leb_gt.
    destruct (N.log2_spec P HP) as [_ L1]. destruct (N.log2_spec Q HQ) as [L2 _].
    apply N.lt_le_trans with (2 ^ N.log2 Q * 2 ^ Z.to_N (p0 + 1 + Z.of_N K)).
    - rewrite <- N.pow_add_r.
      replace (N.log2 Q + Z.to_N (p0 + 1 + Z.of_N K)) with (N.succ (N.log2 P) + K) by lia.
      rewrite N.pow_add_r. apply N.mul_lt_mono_pos_r; auto. apply pow2_pos.
    - apply N.mul_le_mono_r. auto. }
  rewrite GE in G1, G2 by lia.
  unfold fl2. fold p0. fold (ge2 P Q p0).
  change (let '(n, d) := scale2 P Q p0 in if d <=? n then p0 else (p0 - 1)%Z)
    with (let '(n, d) := scale2 P Q p0 in if d <=? n then p0 else (p0 - 1)%Z).
  assert (E : (let '(n, d) := scale2 P Q p0 in if d <=? n then p0 else (p0 - 1)%Z) =
              if ge2 P Q p0 then p0 else (p0 - 1)%Z).
  { unfold ge2. destruct (scale2 P Q p0). reflexivity. }
  rewrite E, GE by lia. destruct (Z.leb_spec p0 (Z.of_N (N.log2 m) + e)); lia.
Qed.

Definition good_format (f : fformat) : Prop := (2 <= prec f)%Z.
Lemma good_F64 : good_format F64. Proof. unfold good_format. simpl. lia. Qed.
Lemma good_F32 : good_format F32. Proof. unfold good_format. simpl. lia. Qed.

Lemma log2_lt_pow a b : 0 < a -> (a < 2 ^ b) -> N.log2 a < b.
Proof. intros H1 H2. apply N.log2_lt_pow2; auto. Qed.
Lemma round_ratio_exact f neg P Q m e : good_format f -> 0 < Q ->
  canonical f (FFin neg m e) = true -> (let '(n, d) := scale2 P Q e in n = m * d) ->
  round_ratio f neg P Q = FFin neg m e.
Proof.
  intros Hf HQ Hc Hx. unfold canonical in Hc.
  repeat (apply andb_prop in Hc as [Hc ?]).
  assert (Hm : 0 < m) by lia.
  pose proof (fl2_exact P Q e m HQ Hm Hx) as HL.
  unfold round_ratio.
  assert (HP : P <> 0).
  { intros ->. pose proof (scale2_exact 0 Q e m (Z.to_N (Z.abs e)) Hx ltac:(lia)) as HE.
    rewrite N.mul_0_l in HE. symmetry in HE. apply N.eq_mul_0 in HE as [HE|HE].
    - apply N.eq_mul_0 in HE. lia.
    - apply N.pow_nonzero in HE; [tauto|lia]. }
  destruct (N.eqb_spec P 0); [contradiction|].
  assert (He : Z.max (fl2 P Q - (prec f - 1)) (emin f) = e).
  { rewrite HL. unfold good_format in Hf.
    assert (N.log2 m < Z.to_N (prec f)) by (apply log2_lt_pow; auto; lia).
    destruct (N.leb_spec (2 ^ Z.to_N (prec f - 1)) m) as [Hb|Hb].
    - assert (Z.to_N (prec f - 1) <= N.log2 m) by (apply N.log2_le_pow2; auto). lia.
    - assert (N.log2 m < Z.to_N (prec f - 1)) by (apply log2_lt_pow; auto). lia. }
  rewrite He. destruct (scale2 P Q e) as [n0 d] eqn:Es. subst n0.
  assert (Hd : 0 < d).
  { unfold scale2 in Es. destruct (0 <=? e)%Z; injection Es as Es1 Es2; subst d; auto.
    apply N.mul_pos_pos; auto. apply pow2_pos. }
  cbv zeta. rewrite (N.div_mul m d), (N.mod_mul m d) by lia. rewrite N.mul_0_r.
  destruct (N.compare_spec 0 d); [lia| |lia].
  destruct (N.eqb_spec m 0); [lia|].
  destruct (N.eqb_spec m (2 ^ Z.to_N (prec f))); [lia|].
  destruct (Z.ltb_spec (emax f) e); [lia|]. reflexivity.
Qed.

Definition set_sign (s : bool) (x : flt) : flt :=
  match x with FNan => FNan | FInf _ => FInf s | FZero _ => FZero s | FFin _ m e => FFin s m e end.
Lemma round_ratio_sign f s P Q : round_ratio f s P Q = set_sign s (round_ratio f false P Q).
Proof.
  unfold round_ratio. destruct (P =? 0); auto. destruct (scale2 P Q _) as [n d]. cbv zeta.
  set (q' := match _ with Eq => _ | Lt => _ | Gt => _ end).
  destruct (q' =? 0); auto. destruct (if q' =? _ then _ else _) as [q2 e2].
  destruct (emax f <? e2)%Z; auto.
Qed.
Lemma round_dec_sign f s D E : round_dec f s D E = set_sign s (round_dec f false D E).
Proof. unfold round_dec. destruct (0 <=? E)%Z; apply round_ratio_sign. Qed.

Lemma exact_dec_round f neg m e : good_format f -> canonical f (FFin neg m e) = true ->
  round_dec f neg (fst (exact_dec m e)) (snd (exact_dec m e)) = FFin neg m e.
Proof.
  intros Hf Hc. unfold exact_dec, round_dec. destruct (Z.leb_spec 0 e); cbn [fst snd].
  - change (0 <=? 0)%Z with true. cbv iota. change (Z.to_N 0) with 0. rewrite N.pow_0_r, N.mul_1_r.
    apply round_ratio_exact; auto; [lia|]. unfold scale2.
    destruct (Z.leb_spec 0 e); [|lia]. ring.
  - destruct (Z.leb_spec 0 e); [lia|].
    apply round_ratio_exact; auto; [apply pow10_pos|]. unfold scale2.
    destruct (Z.leb_spec 0 e); [lia|]. rewrite <- N.mul_assoc, <- N.pow_mul_l. reflexivity.
Qed.

(** ** text *)
Lemma span_digits_app ds r : forallb is_digit ds = true -> (match r with c :: _ => is_digit c = false | [] => True end) ->
  span_digits (ds ++ r) = (ds, r).
Proof.
  intros H Hr. induction ds as [|c ds IH]; cbn [app span_digits].
  - destruct r; auto. cbn [span_digits]. now rewrite Hr.
  - cbn [forallb] in H. apply andb_prop in H as [-> H]. now rewrite IH.
Qed.
Lemma digits_N_acc ds a : fold_left (fun a c => a * 10 + (c - 48)) ds a = a * 10 ^ N.of_nat (length ds) + digits_N ds.
Proof.
  unfold digits_N. revert a; induction ds as [|c ds IH]; intros a; cbn [fold_left length].
  - rewrite N.pow_0_r. lia.
  - rewrite IH, (IH (0 * 10 + (c - 48))). rewrite Nat2N.inj_succ, N.pow_succ_r'. ring.
Qed.
Lemma digits_N_app a b : digits_N (a ++ b) = digits_N a * 10 ^ N.of_nat (length b) + digits_N b.
Proof. unfold digits_N at 1. rewrite fold_left_app. apply digits_N_acc. Qed.
Lemma digits_N_zeros n : digits_N (repeat CH_0 n) = 0.
Proof.
  induction n as [|n IH]; [reflexivity|]. change (repeat CH_0 (S n)) with ([CH_0] ++ repeat CH_0 n).
  now rewrite digits_N_app, IH.
Qed.
Lemma digits_val_N s acc : forallb is_digit s = true ->
  digits_val 10 s acc = Some (fold_left (fun a c => a * 10 + (c - 48)) s acc).
Proof.
  revert acc; induction s as [|c s IH]; intros acc H; auto. cbn [forallb] in H. apply andb_prop in H as [H1 H2].
  cbn [digits_val fold_left]. apply is_digit_range in H1.
  replace c with (48 + (c - 48)) at 1 by lia. rewrite to_digit_10 by lia. now apply IH.
Qed.
Lemma digits_N_dec n : digits_N (dec_of_N n) = n.
Proof.
  pose proof (nat_text_dec n) as H. unfold nat_text in H. pose proof (dec_of_N_nonnil n).
  destruct (dec_of_N n) eqn:E; [congruence|]. rewrite <- E in *.
  rewrite digits_val_N in H by apply dec_of_N_digits. injection H as H. exact H.
Qed.
Lemma zeros_digits n : forallb is_digit (repeat CH_0 n) = true.
Proof. induction n; auto. Qed.
Lemma forallb_firstn {A} (P : A -> bool) n l : forallb P l = true -> forallb P (firstn n l) = true.
Proof.
  rewrite !forallb_forall. intros H x Hx. apply H. rewrite <- (firstn_skipn n l). apply in_or_app. auto.
Qed.
Lemma forallb_skipn {A} (P : A -> bool) n l : forallb P l = true -> forallb P (skipn n l) = true.
Proof.
  rewrite !forallb_forall. intros H x Hx. apply H. rewrite <- (firstn_skipn n l). apply in_or_app. auto.
Qed.
Lemma match46 {A} (c : char) (r : str) (f : str -> A) (d : A) : c <> 46 ->
  match c :: r with 46 :: r' => f r' | _ => d end = d.
Proof.
  intros H. destruct c as [|p]; auto. repeat (destruct p; auto). congruence.
Qed.

(** digits "." digits, or digits alone, parse to the decimal they denote *)
Lemma parse_body_int f neg ds : forallb is_digit ds = true -> ds <> [] ->
  parse_float_body f neg ds = Some (round_dec f neg (digits_N ds) 0).
Proof.
  intros H Hn. unfold parse_float_body. rewrite <- (app_nil_r ds) at 1. rewrite span_digits_app; auto.
  cbv iota beta zeta. rewrite app_nil_r. destruct ds; [congruence|]. reflexivity.
Qed.
Lemma parse_body_frac f neg ip fp : forallb is_digit ip = true -> forallb is_digit fp = true -> ip <> [] ->
  parse_float_body f neg (ip ++ CH_DOT :: fp) =
  Some (round_dec f neg (digits_N (ip ++ fp)) (- Z.of_nat (length fp))).
Proof.
  intros H1 H2 Hn. unfold parse_float_body. rewrite span_digits_app; auto.
  cbv iota beta zeta delta [CH_DOT]. rewrite <- (app_nil_r fp) at 1. rewrite span_digits_app; auto.
  cbv iota beta zeta. destruct (ip ++ fp) eqn:E; [|reflexivity].
  apply app_eq_nil in E as [E _]. congruence.
Qed.
Lemma round_dec_shift f neg D E : (0 <= E)%Z ->
  round_dec f neg (D * 10 ^ Z.to_N E) 0 = round_dec f neg D E.
Proof.
  intros H. unfold round_dec. destruct (Z.leb_spec 0 E); [|lia].
  change (0 <=? 0)%Z with true. cbv iota. change (Z.to_N 0) with 0. now rewrite N.pow_0_r, N.mul_1_r.
Qed.
Lemma parse_body_display f neg D E :
  parse_float_body f neg (display_dec D E) = Some (round_dec f neg D E).
Proof.
  unfold display_dec. pose proof (dec_of_N_digits D) as Hd. pose proof (dec_of_N_nonnil D) as Hn.
  destruct (Z.leb_spec 0 E).
  - rewrite parse_body_int.
    + rewrite digits_N_app, digits_N_dec, repeat_length, digits_N_zeros, N.add_0_r.
      replace (N.of_nat (Z.to_nat E)) with (Z.to_N E) by lia. now rewrite round_dec_shift.
    + rewrite forallb_app, Hd. apply zeros_digits.
    + intros Hx. apply app_eq_nil in Hx as []. contradiction.
  - cbv zeta. destruct (Nat.ltb_spec (Z.to_nat (- E)) (length (dec_of_N D))).
    + rewrite parse_body_frac.
      * rewrite firstn_skipn, digits_N_dec, skipn_length. repeat f_equal. lia.
      * now apply forallb_firstn.
      * now apply forallb_skipn.
      * intros Hx. apply (f_equal (@length N)) in Hx. rewrite firstn_length in Hx. simpl in Hx. lia.
    + change (CH_0 :: CH_DOT :: repeat CH_0 (Z.to_nat (- E) - length (dec_of_N D)) ++ dec_of_N D)
        with ([CH_0] ++ CH_DOT :: (repeat CH_0 (Z.to_nat (- E) - length (dec_of_N D)) ++ dec_of_N D)).
      rewrite parse_body_frac; auto.
      * change [CH_0] with (repeat CH_0 1). rewrite app_assoc, <- repeat_app.
        rewrite digits_N_app, digits_N_zeros, digits_N_dec, app_length, repeat_length.
        rewrite N.mul_0_l, N.add_0_l. repeat f_equal. lia.
      * rewrite forallb_app, zeros_digits. auto.
      * discriminate.
Qed.

Lemma search_ok up ok P Q k fuel n D E : shortest_search up ok P Q k fuel n = Some (D, E) -> ok D E = true.
Proof.
  revert n; induction fuel; intros n H; cbn [shortest_search] in H; [discriminate|].
  destruct (if (0 <=? n - k)%Z then _ else _) as [a b]. cbv zeta in H.
  match type of H with context [let '(x, y) := ?t in _] => destruct t as [x y] end.
  destruct (ok x (- (n - k))%Z) eqn:E1; [injection H as <- <-; auto|].
  destruct (ok y (- (n - k))%Z) eqn:E2; [injection H as <- <-; auto|].
  eauto.
Qed.
Lemma flt_eqb_eq x y : flt_eqb x y = true -> x = y.
Proof.
  destruct x, y; cbn [flt_eqb]; intros H; try discriminate; auto.
  - apply eqb_prop in H. congruence.
  - apply eqb_prop in H. congruence.
  - apply andb_prop in H as [H ?]. apply andb_prop in H as [H ?]. apply eqb_prop in H.
    apply N.eqb_eq in H1. apply Z.eqb_eq in H0. congruence.
Qed.
Lemma display_dec_head D E : exists c r, display_dec D E = c :: r /\ is_digit c = true.
Proof.
  unfold display_dec. destruct (dec_of_N_head D) as (c & r & Hc & Hd & _).
  destruct (Z.leb_spec 0 E).
  - rewrite Hc. cbn [app]. eauto.
  - cbv zeta. destruct (Nat.ltb_spec (Z.to_nat (- E)) (length (dec_of_N D))).
    + rewrite Hc in *. cbn [length] in *.
      destruct (S (length r) - Z.to_nat (- E))%nat eqn:F; [lia|]. cbn [firstn app]. eauto.
    + eexists _, _. split; reflexivity.
Qed.
Lemma sign_split (s : bool) c r : is_digit c = true ->
  match (if s then [CH_MINUS] else []) ++ c :: r with
  | 45 :: r0 => (true, r0) | 43 :: r0 => (false, r0)
  | _ => (false, (if s then [CH_MINUS] else []) ++ c :: r) end = (s, c :: r).
Proof.
  intros H. destruct s; cbn [app]; auto. apply is_digit_range in H.
  destruct c as [|p]; auto. repeat (destruct p; auto); lia.
Qed.
Lemma parse_float_signed f (s : bool) c r : is_digit c = true ->
  parse_float f ((if s then [CH_MINUS] else []) ++ c :: r) = parse_float_body f s (c :: r).
Proof.
  intros H. unfold parse_float. rewrite sign_split by auto.
  assert (L : lower c = c).
  { apply is_digit_range in H. unfold lower. destruct (65 <=? c) eqn:E; auto. lia. }
  cbn [map]. rewrite L. apply is_digit_range in H.
  change (lit "nan") with (110 :: lit "an"). change (lit "inf") with (105 :: lit "nf").
  change (lit "infinity") with (105 :: lit "nfinity"). cbn [str_eqb].
  replace (c =? 110) with false by (symmetry; apply N.eqb_neq; lia).
  replace (c =? 105) with false by (symmetry; apply N.eqb_neq; lia). reflexivity.
Qed.

