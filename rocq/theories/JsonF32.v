(** Writing a finite f32 as JSON and reading it back gives the same f32. *)
From Verif Require Import Base Str Dec Flt FltProofs FltQ FltGap FltF32 Json JsonProofs.
From Coq Require Import ZifyNat ZifyN ZifyBool QArith.
Local Open Scope N_scope.

Lemma acc_frac_fold ds : forallb is_digit ds = true -> forall acc ex,
  fold_left (fun a c => a * 10 + (c - 48)) ds acc <= U64MAX ->
  acc_frac acc ex ds = (fold_left (fun a c => a * 10 + (c - 48)) ds acc, (ex - Z.of_nat (length ds))%Z).
Proof.
  induction ds as [|d ds IH]; intros Hd acc ex H; [cbn; f_equal; lia|]. cbn [acc_frac fold_left forallb length] in *.
  apply andb_prop in Hd as [Hd1 Hd2].
  assert (G : forall ds a, a <= fold_left (fun a c => a * 10 + (c - 48)) ds a).
  { clear. induction ds as [|d ds IH]; intros a; cbn [fold_left]; [lia|]. specialize (IH (a * 10 + (d - 48))). lia. }
  pose proof (G ds (acc * 10 + (d - 48))) as G1.
  destruct (N.leb_spec (acc * 10 + (d - 48)) U64MAX); [|lia]. rewrite IH by auto. f_equal. lia.
Qed.
Lemma acc_both ip fp : forallb is_digit ip = true -> forallb is_digit fp = true -> digits_N (ip ++ fp) <= U64MAX ->
  acc_int 0 ip = (digits_N ip, 0%Z) /\ acc_frac (digits_N ip) 0 fp = (digits_N (ip ++ fp), (- Z.of_nat (length fp))%Z).
Proof.
  intros H1 H2 H. unfold digits_N in *. rewrite fold_left_app in *.
  assert (G : forall ds a, a <= fold_left (fun a c => a * 10 + (c - 48)) ds a).
  { clear. induction ds as [|d ds IH]; intros a; cbn [fold_left]; [lia|]. specialize (IH (a * 10 + (d - 48))). lia. }
  split.
  - apply acc_int_fold; auto. specialize (G fp (fold_left (fun a c => a * 10 + (c - 48)) ip 0)). lia.
  - rewrite acc_frac_fold by auto. reflexivity.
Qed.
Definition signed (s : bool) (o : option flt) : numclass :=
  match o with Some x => NF64 (if s then flt_neg x else x) | None => NRange end.
Lemma classify_frac s ip fp : forallb is_digit ip = true -> forallb is_digit fp = true -> digits_N (ip ++ fp) <= U64MAX ->
  classify {| jneg := s; jint := ip; jfrac := Some fp; jexp := None |} = signed s (to_f64 (digits_N (ip ++ fp)) (- Z.of_nat (length fp))).
Proof.
  intros H1 H2 H. destruct (acc_both ip fp H1 H2 H) as [A B]. unfold classify. cbn [jint jfrac jexp jneg]. rewrite A. cbv iota. rewrite B. reflexivity.
Qed.
Lemma classify_exp s ip (fp : str) en ed (fo := match fp with [] => None | c :: r => Some (c :: r) end) :
  forallb is_digit ip = true -> forallb is_digit fp = true -> digits_N (ip ++ fp) <= U64MAX -> digits_N ed <= 1000 -> (length fp <= 1000)%nat ->
  classify {| jneg := s; jint := ip; jfrac := fo; jexp := Some (en, ed) |} =
  signed s (to_f64 (digits_N (ip ++ fp)) (- Z.of_nat (length fp) + (if en then - Z.of_N (digits_N ed) else Z.of_N (digits_N ed)))).
Proof.
  intros H1 H2 H He Hl. destruct (acc_both ip fp H1 H2 H) as [A B]. unfold classify. cbn [jint jfrac jexp jneg]. rewrite A.
  assert (F : match fo with Some ds => ds | None => [] end = fp) by (unfold fo; destruct fp; auto).
  destruct fo as [ds|] eqn:Ef; cbv iota; rewrite F, B; cbv zeta; destruct (N.ltb_spec 2147483647 (digits_N ed)); try lia;
    (destruct en; [rewrite Z.max_l by lia|rewrite Z.min_l by lia]; reflexivity).
Qed.
Lemma digits_N_lt ds : forallb is_digit ds = true -> digits_N ds < 10 ^ N.of_nat (length ds).
Proof.
  induction ds as [|d ds IH]; intros H; [reflexivity|]. cbn [forallb] in H. apply andb_prop in H as [H1 H2]. specialize (IH H2).
  change (d :: ds) with ([d] ++ ds). rewrite digits_N_app. unfold digits_N at 1. cbn [fold_left app length].
  apply is_digit_range in H1. rewrite Nat2N.inj_succ, N.pow_succ_r'. nia.
Qed.
Lemma dec_len D : 0 < D <= 1000000000 -> (1 <= length (dec_of_N D) <= 10)%nat /\ D < 10 ^ N.of_nat (length (dec_of_N D)).
Proof.
  intros H. pose proof (dec_of_N_digits D) as Dg. pose proof (digits_N_dec D) as DD. split.
  - pose proof (dec_of_N_lead D ltac:(lia)) as L. pose proof (dec_of_N_nonnil D). destruct (dec_of_N D) as [|d r] eqn:E; [congruence|].
    cbn [length]. split; [lia|]. apply Nat.le_ngt. intros C. cbn [hd] in L. cbn [forallb] in Dg. apply andb_prop in Dg as [Dg1 Dg2].
    apply is_digit_range in Dg1. change (d :: r) with ([d] ++ r) in DD. rewrite digits_N_app in DD. unfold digits_N at 1 in DD. cbn [fold_left] in DD.
    assert (10 ^ 10 <= 10 ^ N.of_nat (length r)) by (apply N.pow_le_mono_r; lia). change (10 ^ 10) with 10000000000 in *. nia.
  - rewrite <- DD at 1. now apply digits_N_lt.
Qed.

Lemma f32_of_neg (s : bool) x : f32_of_f64 (if s then flt_neg x else x) = if s then flt_neg (f32_of_f64 x) else f32_of_f64 x.
Proof.
  destruct s; auto. destruct x as [|b|b|b m e]; auto. cbn [flt_neg f32_of_f64]. destruct (ratio_of m e) as [P B].
  rewrite (round_ratio_sign F32 (negb b)), (round_ratio_sign F32 b). destruct (round_ratio F32 false P B); reflexivity.
Qed.
Lemma d_f32_signed n s o m e : classify n = signed s o -> option_map f32_of_f64 o = Some (FFin false m e) -> d_f32 (JNum n) = Some (FFin s m e).
Proof.
  intros C H. unfold d_f32. rewrite C. destruct o as [x|]; [|discriminate]. cbn [option_map signed] in *. injection H as H.
  rewrite f32_of_neg, H. destruct s; reflexivity.
Qed.
(** an integer value below 10^13 written with a fraction of one zero *)
Lemma int_conv D k m e : canonical F32 (FFin false m e) = true -> (0 <= k)%Z -> 0 < D -> D * 10 ^ Z.to_N k < 10 ^ 13 ->
  in_interval F32 m e (qN D * p10 k)%Q -> option_map f32_of_f64 (to_f64 (D * 10 ^ Z.to_N k * 10) (-1)) = Some (FFin false m e).
Proof.
  intros C Hk HD HU I. set (V := D * 10 ^ Z.to_N k) in *. change (10 ^ 13) with 10000000000000 in HU.
  assert (V0 : 0 < V) by (unfold V; pose proof (pow10_pos (Z.to_N k)); nia).
  destruct (to_f64_val (V * 10) (-1)) as (my & ey & F & _ & X); [change (2 ^ 53) with 9007199254740992; lia|lia|].
  rewrite F. cbn [option_map]. f_equal. apply f32_of_interval; auto. apply in_interval_comp with (2 := I).
  assert (W : (qN (V * 10) * p10 (-1) == qN V)%Q). { rewrite qN_mul. change (qN 10) with (10 # 1)%Q. change (p10 (-1)) with (1 # 10)%Q. field. }
  rewrite (X ltac:(lia) V 0%Z); [|change (2 ^ 53) with 9007199254740992; lia|lia|rewrite W; change (p2 0) with 1%Q; ring].
  rewrite W. unfold V. rewrite qN_mul, p10_N. now replace (Z.of_N (Z.to_N k)) with k by lia.
Qed.
Theorem d_f32_e_f32 x : canonical F32 x = true -> match x with FNan | FInf _ => False | _ => True end -> d_f32 (e_f32 x) = Some x.
Proof.
  destruct x as [|s|s|s m e]; intros C Fin; try contradiction; [destruct s; reflexivity|].
  destruct (e_f32_digits s m e C) as (D & E & W & HD & HE & I & Cv). rewrite W. clear W.
  change (canonical F32 (FFin s m e)) with (canonical F32 (FFin false m e)) in C.
  destruct (dec_len D HD) as [Ln Lt]. pose proof (dec_of_N_digits D) as Dg. pose proof (digits_N_dec D) as DD.
  unfold ryu_num. set (ds := dec_of_N D) in *. cbv zeta. set (kk := (Z.of_nat (length ds) + E)%Z).
  assert (DU : D <= U64MAX) by (unfold U64MAX; lia).
  destruct (Z.leb_spec 0 E) as [E0|E0]; [destruct (Z.leb_spec kk 13) as [K|K]|]; cbn [andb].
  - assert (Z10 : digits_N ((ds ++ repeat CH_0 (Z.to_nat E)) ++ [CH_0]) = D * 10 ^ Z.to_N E * 10).
    { rewrite !digits_N_app, DD, digits_N_zeros, repeat_length. change (digits_N [CH_0]) with 0. cbn [length].
      change (10 ^ N.of_nat 1) with 10. replace (N.of_nat (Z.to_nat E)) with (Z.to_N E) by lia. lia. }
    assert (HU : D * 10 ^ Z.to_N E < 10 ^ 13).
    { apply N.lt_le_trans with (10 ^ N.of_nat (length ds) * 10 ^ Z.to_N E); [apply N.mul_lt_mono_pos_r; auto; apply pow10_pos|].
      rewrite <- N.pow_add_r. apply N.pow_le_mono_r; lia. }
    eapply d_f32_signed.
    + apply classify_frac; [rewrite forallb_app, Dg; apply zeros_digits|reflexivity|].
      rewrite Z10. change (10 ^ 13) with 10000000000000 in HU. unfold U64MAX. lia.
    + rewrite Z10. cbn [length]. change (- Z.of_nat 1)%Z with (-1)%Z. apply int_conv; auto. lia.
  - destruct (Z.ltb_spec 0 kk); [|lia]. cbn [andb]. destruct (Z.leb_spec kk 0); [lia|]. rewrite andb_false_r.
    assert (A : firstn 1 ds ++ skipn 1 ds = ds) by apply firstn_skipn.
    eapply d_f32_signed.
    + apply (classify_exp s (firstn 1 ds) (skipn 1 ds)); [now apply forallb_firstn|now apply forallb_skipn|rewrite A, DD; auto|rewrite digits_N_dec; lia|rewrite skipn_length; lia].
    + rewrite A, DD, digits_N_dec, skipn_length. destruct (Z.ltb_spec (kk - 1) 0); [lia|].
      replace (- Z.of_nat (length ds - 1) + Z.of_N (Z.to_N (Z.abs (kk - 1))))%Z with E by lia. exact Cv.
  - destruct (Z.ltb_spec 0 kk) as [K0|K0]; [destruct (Z.leb_spec kk 13) as [K|K]; [|lia]|]; cbn [andb].
    + assert (A : firstn (Z.to_nat kk) ds ++ skipn (Z.to_nat kk) ds = ds) by apply firstn_skipn.
      eapply d_f32_signed.
      * apply classify_frac; [now apply forallb_firstn|now apply forallb_skipn|rewrite A, DD; auto].
      * rewrite A, DD, skipn_length. replace (- Z.of_nat (length ds - Z.to_nat kk))%Z with E by lia. exact Cv.
    + destruct (Z.leb_spec kk 0); [|lia]. destruct (Z.ltb_spec (-6) kk) as [K|K]; cbn [andb].
      * assert (A : digits_N ([CH_0] ++ repeat CH_0 (Z.to_nat (- kk)) ++ ds) = D).
        { rewrite !digits_N_app, digits_N_zeros, DD. change (digits_N [CH_0]) with 0. lia. }
        eapply d_f32_signed.
        -- apply classify_frac; [reflexivity|rewrite forallb_app, zeros_digits; exact Dg|rewrite A; auto].
        -- rewrite A, app_length, repeat_length. replace (- Z.of_nat (Z.to_nat (- kk) + length ds))%Z with E by lia. exact Cv.
      * assert (A : firstn 1 ds ++ skipn 1 ds = ds) by apply firstn_skipn.
        eapply d_f32_signed.
        -- apply (classify_exp s (firstn 1 ds) (skipn 1 ds)); [now apply forallb_firstn|now apply forallb_skipn|rewrite A, DD; auto|rewrite digits_N_dec; lia|rewrite skipn_length; lia].
        -- rewrite A, DD, digits_N_dec, skipn_length. destruct (Z.ltb_spec (kk - 1) 0); [|lia].
           replace (- Z.of_nat (length ds - 1) + - Z.of_N (Z.to_N (Z.abs (kk - 1))))%Z with E by lia. exact Cv.
Qed.
