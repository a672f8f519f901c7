(** Proofs about [M_Color.v]. *)
From Verif Require Import Base Spec Str Dec Flt FltProofs Json JsonProofs M_Color.
From Coq Require Import ZifyNat ZifyN ZifyBool.

Lemma byte_high a n : a < 256 -> 8 <= n -> N.testbit a n = false.
Proof.
  intros H Hn. destruct (N.eq_dec a 0) as [->|Ha]; [apply N.bits_0|].
  apply N.bits_above_log2. assert (N.log2 a < 8); [|lia]. apply N.log2_lt_pow2; [lia|]. exact H.
Qed.
Lemma u32_high a n : a < 4294967296 -> 32 <= n -> N.testbit a n = false.
Proof.
  intros H Hn. destruct (N.eq_dec a 0) as [->|Ha]; [apply N.bits_0|].
  apply N.bits_above_log2. assert (N.log2 a < 32); [|lia]. apply N.log2_lt_pow2; [lia|]. exact H.
Qed.
Lemma shiftl_bit a k n : N.testbit (N.shiftl a k) n = (k <=? n) && N.testbit a (n - k).
Proof.
  destruct (N.leb_spec k n); [now rewrite N.shiftl_spec_high'|now rewrite N.shiftl_spec_low].
Qed.
Lemma mask_bit k n : N.testbit (N.ones k) n = (n <? k).
Proof. destruct (N.ltb_spec n k); [now apply N.ones_spec_low|now apply N.ones_spec_high]. Qed.
Ltac bits := change 0xff with (N.ones 8); change 511 with (N.ones 9); change 0xffffffff with (N.ones 32);
  repeat first [rewrite N.land_spec|rewrite N.lor_spec|rewrite N.shiftr_spec'|rewrite shiftl_bit|rewrite mask_bit].
Lemma argb_components a r g b : a < 256 -> r < 256 -> g < 256 -> b < 256 ->
  alpha (from_argb a r g b) = a /\ red (from_argb a r g b) = r /\ green (from_argb a r g b) = g /\ blue (from_argb a r g b) = b.
Proof.
  intros Ha Hr Hg Hb. unfold alpha, red, green, blue, from_argb, as_u8. cbn [cval].
  assert (G : forall x, x < 256 -> forall n, N.testbit x n = (n <? 8) && N.testbit x n).
  { intros x Hx n. destruct (N.ltb_spec n 8); auto. rewrite byte_high; auto. }
  repeat split; apply N.bits_inj; intros n; bits.
  - rewrite (G a Ha n). destruct (N.ltb_spec n 8); [|now rewrite andb_false_r].
    rewrite (byte_high r), (byte_high g), (byte_high b) by lia.
    replace (24 <=? n + 24) with true by lia. replace (n + 24 - 24) with n by lia.
    replace (n <? 9) with true by lia. rewrite ?andb_false_r, ?orb_false_r, ?andb_true_r; cbn [andb orb]; rewrite ?andb_false_r, ?orb_false_r, ?andb_true_r. reflexivity.
  - rewrite (G r Hr n). destruct (N.ltb_spec n 8); [|now rewrite andb_false_r].
    rewrite (byte_high g), (byte_high b) by lia. replace (24 <=? n + 16) with false by lia.
    replace (16 <=? n + 16) with true by lia. replace (n + 16 - 16) with n by lia.
    replace (n <? 9) with true by lia. rewrite ?andb_false_r, ?orb_false_r, ?andb_true_r; cbn [andb orb]; rewrite ?andb_false_r, ?orb_false_r, ?andb_true_r. reflexivity.
  - rewrite (G g Hg n). destruct (N.ltb_spec n 8); [|now rewrite andb_false_r].
    rewrite (byte_high b) by lia. replace (24 <=? n + 8) with false by lia. replace (16 <=? n + 8) with false by lia.
    replace (8 <=? n + 8) with true by lia. replace (n + 8 - 8) with n by lia.
    replace (n <? 9) with true by lia. cbn [andb orb]. rewrite !orb_false_r, !andb_true_r. reflexivity.
  - rewrite (G b Hb n). destruct (N.ltb_spec n 8); [|now rewrite andb_false_r].
    replace (24 <=? n + 0) with false by lia. replace (16 <=? n + 0) with false by lia.
    replace (8 <=? n + 0) with false by lia. replace (n + 0) with n by lia.
    replace (n <? 9) with true by lia. cbn [andb orb]; rewrite ?andb_true_r; reflexivity.
Qed.
Lemma argb_own c : cval c < 4294967296 -> from_argb (alpha c) (red c) (green c) (blue c) = c.
Proof.
  destruct c as [v]. cbn [cval]. intros H. unfold from_argb. f_equal. unfold alpha, red, green, blue, as_u8. cbn [cval].
  apply N.bits_inj; intros n. bits.
  destruct (N.ltb_spec n 32) as [Hn|Hn].
  - destruct (N.leb_spec 24 n).
    { replace (n - 24 <? 9) with true by lia. replace (n - 24 <? 8) with true by lia. replace (n - 24 + 24) with n by lia.
      replace (n - 16 <? 8) with false by lia. replace (n - 8 <? 8) with false by lia. replace (n <? 8) with false by lia.
      rewrite ?andb_false_r, ?orb_false_r, ?andb_true_r; cbn [andb orb]; rewrite ?andb_false_r, ?orb_false_r, ?andb_true_r. reflexivity. }
    destruct (N.leb_spec 16 n).
    { replace (n - 16 <? 9) with true by lia. replace (n - 16 <? 8) with true by lia. replace (n - 16 + 16) with n by lia.
      replace (n - 8 <? 8) with false by lia. replace (n <? 8) with false by lia.
      rewrite ?andb_false_r, ?orb_false_r, ?andb_true_r; cbn [andb orb]; rewrite ?andb_false_r, ?orb_false_r, ?andb_true_r. reflexivity. }
    destruct (N.leb_spec 8 n).
    { replace (n - 8 <? 9) with true by lia. replace (n - 8 <? 8) with true by lia. replace (n - 8 + 8) with n by lia.
      replace (n <? 8) with false by lia. rewrite ?andb_false_r, ?orb_false_r, ?andb_true_r; cbn [andb orb]; rewrite ?andb_false_r, ?orb_false_r, ?andb_true_r. reflexivity. }
    replace (n <? 9) with true by lia. replace (n <? 8) with true by lia. replace (n + 0) with n by lia.
    cbn [andb orb]; rewrite ?andb_true_r; reflexivity.
  - rewrite (u32_high v n) by auto.
    replace (n - 24 <? 8) with false by lia. replace (n - 16 <? 8) with false by lia. replace (n - 8 <? 8) with false by lia.
    replace (n <? 8) with false by lia. rewrite !andb_false_r. reflexivity.
Qed.
Lemma argb_value a r g b : a < 256 -> r < 256 -> g < 256 -> b < 256 ->
  cval (from_argb a r g b) = a * 16777216 + r * 65536 + g * 256 + b.
Proof.
  intros Ha Hr Hg Hb. unfold from_argb. cbn [cval].
  assert (L : forall x y k, y < 2 ^ k -> N.lor (N.shiftl x k) y = x * 2 ^ k + y).
  { intros x y k Hy. rewrite <- N.shiftl_mul_pow2. symmetry. rewrite N.add_nocarry_lxor, N.lxor_lor; auto.
    - apply N.bits_inj. intros n. rewrite N.land_spec, shiftl_bit, N.bits_0. destruct (N.leb_spec k n); auto.
      destruct (N.eq_dec y 0) as [->|Hy0]; [rewrite N.bits_0; apply andb_false_r|].
      rewrite (N.bits_above_log2 y); [apply andb_false_r|]. apply N.log2_lt_pow2 in Hy; lia.
    - apply N.bits_inj. intros n. rewrite N.land_spec, shiftl_bit, N.bits_0. destruct (N.leb_spec k n); auto.
      destruct (N.eq_dec y 0) as [->|Hy0]; [rewrite N.bits_0; apply andb_false_r|].
      rewrite (N.bits_above_log2 y); [apply andb_false_r|]. apply N.log2_lt_pow2 in Hy; lia. }
  replace (N.lor (N.lor (N.lor (N.shiftl a 24) (N.shiftl r 16)) (N.shiftl g 8)) b)
    with (N.lor (N.shiftl (N.lor (N.shiftl (N.lor (N.shiftl a 8) r) 8) g) 8) b).
  - rewrite !L by (simpl; lia). change (2 ^ 8) with 256. lia.
  - rewrite !N.shiftl_lor, !N.shiftl_shiftl. reflexivity.
Qed.

(** ** JSON *)
Lemma fl2_int n : 0 < n -> fl2 n 1 = Z.of_N (N.log2 n).
Proof.
  intros H. unfold fl2. change (N.log2 1) with 0. rewrite Z.sub_0_r. unfold scale2.
  destruct (Z.leb_spec 0 (Z.of_N (N.log2 n))); [|lia]. rewrite N2Z.id.
  pose proof (N.log2_spec n H) as [L _]. destruct (N.leb_spec (1 * 2 ^ N.log2 n) n); lia.
Qed.
Lemma f64_small n : 0 < n -> n < 2 ^ 53 -> exists m e, f64_of_N n = FFin false m e /\ ratio_of m e = (m, 2 ^ Z.to_N (- e)) /\
  m = n * 2 ^ Z.to_N (- e) /\ (e <= 0)%Z.
Proof.
  intros H0 H. assert (L : N.log2 n < 53) by (now apply N.log2_lt_pow2).
  exists (n * 2 ^ (52 - N.log2 n)), (- Z.of_N (52 - N.log2 n))%Z.
  pose proof (N.log2_spec n H0) as [L1 L2]. rewrite N.pow_succ_r' in L2.
  assert (P : 2 ^ N.log2 n * 2 ^ (52 - N.log2 n) = 2 ^ 52) by (rewrite <- N.pow_add_r; f_equal; lia).
  split; [|split; [|split]].
  - unfold f64_of_N. apply round_ratio_exact.
    + apply good_F64.
    + lia.
    + unfold canonical. cbn [prec emin emax F64]. change (Z.to_N 53) with 53. change (Z.to_N (53 - 1)) with 52.
      assert (2 ^ 52 <= n * 2 ^ (52 - N.log2 n)) by (rewrite <- P; apply N.mul_le_mono_r; auto).
      assert (n * 2 ^ (52 - N.log2 n) < 2 ^ 53).
      { replace (2 ^ 53) with (2 * 2 ^ N.log2 n * 2 ^ (52 - N.log2 n)) by (rewrite <- N.mul_assoc, P; reflexivity).
        apply N.mul_lt_mono_pos_r; auto. apply pow2_pos. }
      change (2 ^ 52) with 4503599627370496 in *. change (2 ^ 53) with 9007199254740992 in *. lia.
    + unfold scale2. destruct (Z.leb_spec 0 (- Z.of_N (52 - N.log2 n))).
      * replace (52 - N.log2 n) with 0 by lia. change (Z.to_N (- Z.of_N 0)) with 0. rewrite !N.pow_0_r. lia.
      * rewrite Z.opp_involutive, N2Z.id. lia.
  - unfold ratio_of. destruct (Z.leb_spec 0 (- Z.of_N (52 - N.log2 n))); auto.
    replace (52 - N.log2 n) with 0 by lia. change (Z.to_N (- Z.of_N 0)) with 0. change (Z.to_N (- - Z.of_N 0)) with 0. rewrite !N.pow_0_r. f_equal. lia.
  - now rewrite Z.opp_involutive, N2Z.id.
  - lia.
Qed.
Lemma f64_big n : 2 ^ 53 <= n -> n < 2 ^ 64 -> exists m e, f64_of_N n = FFin false m e /\ (1 <= e)%Z /\ 2 ^ 52 <= m.
Proof.
  intros H H2. assert (Hn : 0 < n) by lia.
  assert (L : 53 <= N.log2 n) by (now apply N.log2_le_pow2).
  assert (LU : N.log2 n < 64) by (now apply N.log2_lt_pow2).
  unfold f64_of_N, round_ratio. destruct (N.eqb_spec n 0); [lia|]. rewrite fl2_int by auto. cbn [prec emin emax F64].
  rewrite Z.max_l by lia. set (k := N.log2 n - 52). replace (Z.of_N (N.log2 n) - (53 - 1))%Z with (Z.of_N k) by lia.
  unfold scale2. destruct (Z.leb_spec 0 (Z.of_N k)); [|lia]. rewrite N2Z.id, N.mul_1_l.
  change (Z.to_N 53) with 53. change (Z.to_N (53 - 1)) with 52.
  pose proof (N.log2_spec n Hn) as [L1 L2].
  assert (Q : 2 ^ 52 <= n / 2 ^ k).
  { apply N.div_le_lower_bound; [pose proof (pow2_pos k); lia|]. rewrite <- N.pow_add_r. replace (k + 52) with (N.log2 n) by lia. auto. }
  set (q := n / 2 ^ k) in *. set (r := n mod 2 ^ k).
  match goal with |- context [?t =? 0] => set (q' := t) end.
  assert (Q' : q <= q') by (unfold q'; destruct (2 * r ?= 2 ^ k); [destruct (N.even q)| |]; lia).
  change (2 ^ 52) with 4503599627370496 in *.
  destruct (N.eqb_spec q' 0); [lia|].
  destruct (q' =? 2 ^ 53).
  - destruct (Z.ltb_spec 971 (Z.of_N k + 1)); [lia|]. eexists _, _. split; [reflexivity|]. split; [lia|]. lia.
  - destruct (Z.ltb_spec 971 (Z.of_N k)); [lia|]. eexists _, _. split; [reflexivity|]. split; [lia|]. lia.
Qed.
Lemma i32_f64_N (s : bool) n : n < 2 ^ 64 -> i32_of_flt (if s then flt_neg (f64_of_N n) else f64_of_N n) =
  if s then Z.max (- Z.of_N n) (-2147483648) else Z.min (Z.of_N n) 2147483647.
Proof.
  intros H. destruct (N.eq_dec n 0) as [->|Hn0]; [destruct s; reflexivity|].
  destruct (N.lt_ge_cases n (2 ^ 53)) as [H53|H53].
  - destruct (f64_small n) as (m & e & E & R & M & Ee); [lia|auto|]. rewrite E.
    assert (D : m / 2 ^ Z.to_N (- e) = n) by (rewrite M; apply N.div_mul; pose proof (pow2_pos (Z.to_N (- e))); lia).
    destruct s; cbn [flt_neg i32_of_flt negb]; rewrite R, D; reflexivity.
  - destruct (f64_big n) as (m & e & E & He & Hm); auto. rewrite E.
    assert (R : ratio_of m e = (m * 2 ^ Z.to_N e, 1)) by (unfold ratio_of; destruct (Z.leb_spec 0 e); [auto|lia]).
    assert (B : 2147483648 <= m * 2 ^ Z.to_N e).
    { pose proof (pow2_pos (Z.to_N e)). assert (m * 1 <= m * 2 ^ Z.to_N e) by (apply N.mul_le_mono_l; lia).
      change (2 ^ 52) with 4503599627370496 in Hm. lia. }
    change (2 ^ 53) with 9007199254740992 in H53.
    destruct s; cbn [flt_neg i32_of_flt negb]; rewrite R, N.div_1_r; lia.
Qed.
Lemma i32_f64_Z z : (Z.abs z < 2 ^ 64)%Z -> i32_of_flt (f64_of_Z z) = Z.min (Z.max z (-2147483648)) 2147483647.
Proof.
  intros H. destruct z as [|p|p].
  - reflexivity.
  - unfold f64_of_Z. rewrite (i32_f64_N false) by (change (2 ^ 64) with 18446744073709551616; lia). lia.
  - unfold f64_of_Z. rewrite (i32_f64_N true) by (change (2 ^ 64) with 18446744073709551616; lia). lia.
Qed.
Lemma d_color_int z : (-9223372036854775808 <= z < 18446744073709551616)%Z ->
  d_color (e_int z) = Some (color_of_u32 (u32_of_i32
    (let w := if (z <? 9223372036854775808)%Z then z else (z - 18446744073709551616)%Z in
     Z.min (Z.max w (-2147483648)) 2147483647))).
Proof.
  intros H.
  assert (G : forall n, Z.of_N n = z -> d_color (e_nat n) = Some (color_of_u32 (u32_of_i32
    (let w := if (z <? 9223372036854775808)%Z then z else (z - 18446744073709551616)%Z in
     Z.min (Z.max w (-2147483648)) 2147483647)))).
  { intros n Hn. unfold e_nat, d_color. rewrite classify_nat by (unfold U64MAX; lia). cbv iota.
    unfold visit_u64, visit_i64, visit_f64, i64_of_u64.
    destruct (N.ltb_spec n 9223372036854775808); destruct (Z.ltb_spec z 9223372036854775808); try lia;
      rewrite i32_f64_Z by lia; subst z; reflexivity. }
  destruct z as [|p|p].
  - apply (G 0). reflexivity.
  - unfold e_int. apply G. lia.
  - unfold e_int, d_color. rewrite classify_nat by (unfold U64MAX; lia). cbv iota.
    destruct (N.eqb_spec (N.pos p) 0); [lia|]. destruct (N.ltb_spec 9223372036854775808 (N.pos p)); [lia|]. cbn [orb].
    unfold visit_i64, visit_f64. rewrite i32_f64_Z by lia. destruct (Z.ltb_spec (Z.neg p) 9223372036854775808); [|lia].
    reflexivity.
Qed.
Lemma land_u32 v : v < 4294967296 -> N.land v 0xffffffff = v.
Proof. intros H. change 0xffffffff with (N.ones 32). rewrite N.land_ones. now apply N.mod_small. Qed.
Lemma u32_i32 v : v < 4294967296 -> u32_of_i32 (i32_of_u32 v) = v.
Proof.
  intros H. unfold u32_of_i32, i32_of_u32. destruct (N.ltb_spec v 2147483648).
  - rewrite Z.mod_small by lia. lia.
  - replace (Z.of_N v - 4294967296)%Z with (Z.of_N v + (-1) * 4294967296)%Z by lia. rewrite Z.mod_add by lia.
    rewrite Z.mod_small by lia. lia.
Qed.
Lemma i32_range v : v < 4294967296 -> (-2147483648 <= i32_of_u32 v <= 2147483647)%Z.
Proof. intros H. unfold i32_of_u32. destruct (N.ltb_spec v 2147483648); lia. Qed.
Lemma d_color_e c : cval c < 4294967296 -> d_color (e_color c) = Some c.
Proof.
  intros H. unfold e_color. pose proof (i32_range _ H) as R. rewrite d_color_int by lia. cbv zeta.
  destruct (Z.ltb_spec (i32_of_u32 (cval c)) 9223372036854775808); [|lia].
  rewrite Z.max_l, Z.min_l by lia. rewrite u32_i32 by auto. unfold color_of_u32. rewrite land_u32 by auto. now destruct c.
Qed.

(** ** Hex *)
Lemma hexv_digit c : to_digit 16 c = hexv c.
Proof.
  destruct (N.lt_ge_cases c 128) as [H|H].
  - assert (G : forallb (fun c => match to_digit 16 c, hexv c with Some a, Some b => a =? b | None, None => true | _, _ => false end)
                  (map N.of_nat (seq 0 128)) = true) by (vm_compute; reflexivity).
    rewrite forallb_forall in G. specialize (G c). rewrite in_map_iff in G.
    assert (E : exists x, N.of_nat x = c /\ In x (seq 0 128)) by (exists (N.to_nat c); split; [lia|apply in_seq; lia]).
    apply G in E. destruct (to_digit 16 c), (hexv c); try discriminate; auto. apply N.eqb_eq in E. congruence.
  - unfold to_digit, hexv.
    destruct (N.leb_spec c 57); [lia|]. destruct (N.leb_spec c 122); [lia|]. destruct (N.leb_spec c 102); [lia|].
    destruct (N.leb_spec c 90); [lia|]. destruct (N.leb_spec c 70); [lia|]. rewrite !andb_false_r. reflexivity.
Qed.
Lemma hexv_lt c v : hexv c = Some v -> v < 16 /\ c < 128 /\ c <> 43.
Proof.
  unfold hexv. intros E.
  destruct ((48 <=? c) && (c <=? 57)) eqn:E1; [injection E as <-; lia|].
  destruct ((97 <=? c) && (c <=? 102)) eqn:E2; [injection E as <-; lia|].
  destruct ((65 <=? c) && (c <=? 70)) eqn:E3; [injection E as <-; lia|discriminate].
Qed.
Lemma digits_val_none s acc : (exists c, In c s /\ hexv c = None) -> digits_val 16 s acc = None.
Proof.
  revert acc; induction s as [|d s IH]; intros acc (c & Hin & Hc); [destruct Hin|].
  cbn [digits_val]. rewrite hexv_digit. destruct (hexv d) eqn:E; auto. apply IH.
  destruct Hin as [->|Hin]; [congruence|eauto].
Qed.
Lemma parse_uint_plus m r : parse_uint 16 m (43 :: r) = match nat_text 16 r with Some v => if v <=? m then Some v else None | None => None end.
Proof. reflexivity. Qed.
Lemma parse_uint_noplus m s : hd 0 s <> 43 -> parse_uint 16 m s = match nat_text 16 s with Some v => if v <=? m then Some v else None | None => None end.
Proof.
  intros H. unfold parse_uint. destruct s as [|c s]; auto. cbn [hd] in H.
  replace (match c :: s with 43 :: r => r | _ => c :: s end) with (c :: s); auto.
  destruct c as [|p]; auto. do 6 (destruct p; auto). congruence.
Qed.
Lemma digits_hexnum s acc : digits_val 16 s acc = option_map (fun w => acc * 16 ^ N.of_nat (length s) + w) (hexnum s).
Proof.
  revert acc; induction s as [|c s IH]; intros acc; cbn [digits_val hexnum length].
  - cbn [option_map]. f_equal. change (16 ^ N.of_nat 0) with 1. lia.
  - rewrite hexv_digit. destruct (hexv c) as [v|]; [|reflexivity]. rewrite IH.
    destruct (hexnum s) as [w|]; [|reflexivity]. cbn [option_map]. f_equal.
    rewrite Nat2N.inj_succ, N.pow_succ_r'. lia.
Qed.
Lemma nat_text_hex s : s <> [] -> nat_text 16 s = hexnum s.
Proof.
  intros H. unfold nat_text. destruct s as [|c s]; [congruence|]. rewrite digits_hexnum. destruct (hexnum (c :: s)); cbn [option_map]; auto.
Qed.
Lemma hexnum_none s : hexnum s = None <-> exists c, In c s /\ hexv c = None.
Proof.
  induction s as [|c s IH]; cbn [hexnum In].
  - split; [discriminate|]. intros (? & [] & _).
  - destruct (hexv c) as [v|] eqn:E.
    + destruct (hexnum s) as [w|]; split; try discriminate; auto.
      * intros (d & [->|Hd] & Hn); [congruence|]. assert (Some w = None) by (apply IH; eauto). discriminate.
      * intros _. destruct IH as [IH _]. destruct (IH eq_refl) as (d & Hd & Hn). eauto.
    + split; auto. intros _. exists c. auto.
Qed.
Lemma hexnum_hd s v : hexnum s = Some v -> hd 0 s <> 43.
Proof.
  destruct s as [|c s]; cbn [hexnum hd]; [discriminate|]. destruct (hexv c) eqn:E; [|discriminate].
  intros _. now apply hexv_lt in E.
Qed.
Lemma hexnum_blen s v : hexnum s = Some v -> blen s = length s.
Proof.
  revert v; induction s as [|c s IH]; intros v; cbn [hexnum blen length]; auto. destruct (hexv c) eqn:E; [|discriminate].
  apply hexv_lt in E. destruct (hexnum s); [|discriminate]. intros _. rewrite (IH _ eq_refl). unfold u8len.
  destruct (N.ltb_spec c 128); lia.
Qed.
Lemma hexnum_lt s v : hexnum s = Some v -> v < 16 ^ N.of_nat (length s).
Proof.
  revert v; induction s as [|c s IH]; intros v; cbn [hexnum length].
  - intros [= <-]. reflexivity.
  - destruct (hexv c) eqn:E; [|discriminate]. apply hexv_lt in E. destruct (hexnum s) as [w|]; [|discriminate]. intros [= <-].
    specialize (IH _ eq_refl). rewrite Nat2N.inj_succ, N.pow_succ_r'. nia.
Qed.
(** complete description of [parse_hex] *)
Lemma parse_hex_spec s c : parse_hex s = Some c <->
  exists t v, hexnum t = Some v /\ v < 4294967296 /\ t <> [] /\
    ((length s = 6%nat /\ s = t /\ cval c = 4278190080 + v) \/ (blen s <> 6%nat /\ (s = t \/ s = 43 :: t) /\ cval c = v)).
Proof.
  unfold parse_hex.
  assert (K : forall t x, option_map color_of_u32 (match nat_text 16 t with Some v => if v <=? U32MAX then Some v else None | None => None end) = Some x <->
    t <> [] /\ exists v, hexnum t = Some v /\ v < 4294967296 /\ cval x = v).
  { intros t x. destruct t as [|a t].
    - cbn [nat_text]. split; [discriminate|intros [? _]; congruence].
    - rewrite nat_text_hex by discriminate. destruct (hexnum (a :: t)) as [v|].
      + unfold U32MAX. destruct (N.leb_spec v 4294967295); cbn [option_map].
        * unfold color_of_u32. rewrite land_u32 by lia. split.
          -- intros [= <-]. cbn [cval]. split; [discriminate|]. exists v. repeat split; lia.
          -- intros [_ (w & [= <-] & _ & E)]. destruct x; cbn in E. now subst.
        * split; [discriminate|]. intros [_ (w & [= <-] & L & _)]. lia.
      + split; [discriminate|]. intros [_ (w & ? & _)]. discriminate. }
  destruct (Nat.eqb_spec (blen s) 6) as [E|E].
  - change (lit "ff" ++ s) with (102 :: 102 :: s). rewrite parse_uint_noplus by discriminate. rewrite K. split.
    + intros [_ (v & H & L & Hc)]. cbn [hexnum] in H. change (hexv 102) with (Some 15) in H.
      destruct (hexnum s) as [w|] eqn:Es; [|discriminate].
      assert (Ev : v = 15 * 16 ^ N.of_nat (length (102 :: s)) + (15 * 16 ^ N.of_nat (length s) + w)) by congruence.
      rewrite Ev in L, Hc. clear Ev H.
      pose proof (hexnum_blen _ _ Es) as B. pose proof (hexnum_lt _ _ Es) as B2.
      assert (length s = 6%nat) by lia. rewrite H in B2. 
      cbn [length] in Hc. rewrite H in Hc. change (16 ^ N.of_nat 7) with 268435456 in Hc. change (16 ^ N.of_nat 6) with 16777216 in *.
      exists s, w. repeat split; auto; [lia|destruct s; discriminate|]. left. repeat split; auto. lia.
    + intros (t & v & H & L & Hn & [(L6 & -> & Hc)|(? & _)]); [|congruence]. split; [discriminate|].
      exists (4278190080 + v). pose proof (hexnum_lt _ _ H) as B. rewrite L6 in B. change (16 ^ N.of_nat 6) with 16777216 in *.
      cbn [hexnum]. change (hexv 102) with (Some 15). rewrite H. cbn [length]. rewrite L6. change (16 ^ N.of_nat 7) with 268435456. change (16 ^ N.of_nat 6) with 16777216 in *.
      repeat split; [f_equal; lia|lia|auto].
  - cbn [app]. destruct (N.eq_dec (hd 0 s) 43) as [P|P].
    + destruct s as [|p t]; [discriminate|]. cbn [hd] in P. subst p. rewrite parse_uint_plus, K. split.
      * intros [Hn (v & H & L & Hc)]. exists t, v. repeat split; auto.
      * intros (u & v & H & L & Hn & [(L6 & <- & _)|(_ & [<-|[= <-]] & Hc)]).
        -- exfalso. apply hexnum_hd in H. now cbn in H.
        -- exfalso. apply hexnum_hd in H. now cbn in H.
        -- split; eauto.
    + rewrite parse_uint_noplus, K by auto. split.
      * intros [Hn (v & H & L & Hc)]. exists s, v. repeat split; auto.
      * intros (u & v & H & L & Hn & [(L6 & <- & _)|(_ & [<-| ->] & Hc)]).
        -- exfalso. apply hexnum_blen in H. lia.
        -- split; eauto.
        -- now cbn in P.
Qed.
Lemma color_range_d j c : d_color j = Some c -> cval c < 4294967296.
Proof.
  assert (K : forall x, cval (visit_f64 x) < 4294967296).
  { intros x. unfold visit_f64, color_of_u32. cbn [cval]. change 0xffffffff with (N.ones 32). rewrite N.land_ones.
    apply N.mod_lt. discriminate. }
  unfold d_color. destruct j; try discriminate. destruct (classify n); intros [= <-]; apply K.
Qed.
