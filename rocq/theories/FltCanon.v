(** Rounding and parsing give values of the format: results are always [canonical]. *)
From Verif Require Import Base Str Dec Flt FltProofs.
From Coq Require Import ZifyNat ZifyN ZifyBool.

Lemma ge2_pow P Q e k n d : scale2 P Q e = (n, d) -> (0 <= k)%Z -> ge2 P Q (e + k) = (d * 2 ^ Z.to_N k <=? n).
Proof.
  intros S Hk. unfold scale2 in S. destruct (Z.leb_spec 0 e) as [He|He]; injection S as <- <-.
  - rewrite (ge2_scale P Q _ 0) by lia. change (2 ^ 0) with 1. rewrite N.mul_1_r.
    replace (Z.to_N (e + k + Z.of_N 0)) with (Z.to_N e + Z.to_N k) by lia. now rewrite N.pow_add_r, N.mul_assoc.
  - rewrite (ge2_scale P Q _ (Z.to_N (- e))) by lia. now replace (Z.to_N (e + k + Z.of_N (Z.to_N (- e)))) with (Z.to_N k) by lia.
Qed.
Lemma fl2_spec P Q : 0 < P -> 0 < Q -> ge2 P Q (fl2 P Q) = true /\ ge2 P Q (fl2 P Q + 1) = false.
Proof.
  intros HP HQ. set (p0 := (Z.of_N (N.log2 P) - Z.of_N (N.log2 Q))%Z).
  set (K := Z.to_N (Z.abs p0 + 2)). assert (HK : (Z.of_N K = Z.abs p0 + 2)%Z) by lia.
  assert (G1 : ge2 P Q (p0 - 1) = true).
  { rewrite (ge2_scale P Q _ K) by lia. apply N.leb_le.
    destruct (N.log2_spec P HP) as [L1 _]. destruct (N.log2_spec Q HQ) as [_ L2].
    apply N.le_trans with (2 ^ N.succ (N.log2 Q) * 2 ^ Z.to_N (p0 - 1 + Z.of_N K)).
    - apply N.mul_le_mono_r. lia.
    - rewrite <- N.pow_add_r. replace (N.succ (N.log2 Q) + Z.to_N (p0 - 1 + Z.of_N K)) with (N.log2 P + K) by lia.
      rewrite N.pow_add_r. apply N.mul_le_mono_r. auto. }
  assert (G2 : ge2 P Q (p0 + 1) = false).
  { rewrite (ge2_scale P Q _ K) by lia. apply N.leb_gt.
    destruct (N.log2_spec P HP) as [_ L1]. destruct (N.log2_spec Q HQ) as [L2 _].
    apply N.lt_le_trans with (2 ^ N.log2 Q * 2 ^ Z.to_N (p0 + 1 + Z.of_N K)).
    - rewrite <- N.pow_add_r. replace (N.log2 Q + Z.to_N (p0 + 1 + Z.of_N K)) with (N.succ (N.log2 P) + K) by lia.
      rewrite N.pow_add_r. apply N.mul_lt_mono_pos_r; auto. apply pow2_pos.
    - apply N.mul_le_mono_r. auto. }
  assert (E : fl2 P Q = if ge2 P Q p0 then p0 else (p0 - 1)%Z).
  { unfold fl2. fold p0. unfold ge2. destruct (scale2 P Q p0). reflexivity. }
  rewrite E. destruct (ge2 P Q p0) eqn:G; [auto|]. split; auto. now replace (p0 - 1 + 1)%Z with p0 by lia.
Qed.
Lemma ge2_mono P Q p p' : (p' <= p)%Z -> ge2 P Q p = true -> ge2 P Q p' = true.
Proof.
  intros H. set (K := Z.to_N (Z.abs p + Z.abs p')). rewrite (ge2_scale P Q p K), (ge2_scale P Q p' K) by lia.
  rewrite !N.leb_le. intros L. apply N.le_trans with (2 := L). apply N.mul_le_mono_l. apply N.pow_le_mono_r; lia.
Qed.
Lemma round_ratio_canonical f neg P Q : (1 < prec f)%Z -> 0 < Q -> canonical f (round_ratio f neg P Q) = true.
Proof.
  intros Hp HQ. unfold round_ratio. destruct (N.eqb_spec P 0) as [|HP]; [reflexivity|].
  destruct (fl2_spec P Q ltac:(lia) HQ) as [G1 G2]. set (e := Z.max (fl2 P Q - (prec f - 1)) (emin f)).
  destruct (scale2 P Q e) as [n d] eqn:S. cbv zeta.
  assert (Hd : 0 < d).
  { unfold scale2 in S. destruct (0 <=? e)%Z; injection S as _ <-; auto. apply N.mul_pos_pos; auto. apply pow2_pos. }
  assert (U : n / d < 2 ^ Z.to_N (prec f)).
  { apply N.div_lt_upper_bound; [lia|]. apply N.leb_gt. rewrite <- (ge2_pow P Q e (prec f) n d S) by lia.
    destruct (ge2 P Q (e + prec f)) eqn:G; auto. apply (ge2_mono P Q _ (fl2 P Q + 1)) in G; [congruence|]. lia. }
  assert (L : e = emin f \/ 2 ^ Z.to_N (prec f - 1) <= n / d).
  { destruct (Z.max_spec (fl2 P Q - (prec f - 1)) (emin f)) as [[H1 H2]|[H1 H2]]; [now left|right].
    apply N.div_le_lower_bound; [lia|]. apply N.leb_le. rewrite <- (ge2_pow P Q e (prec f - 1) n d S) by lia.
    replace (e + (prec f - 1))%Z with (fl2 P Q) by lia. exact G1. }
  assert (He : (emin f <= e)%Z) by lia. clearbody e. set (q := n / d) in *.
  set (q' := match 2 * (n mod d) ?= d with Lt => q | Gt => q + 1 | Eq => if N.even q then q else q + 1 end).
  assert (Q' : q <= q' <= q + 1) by (unfold q'; destruct (2 * (n mod d) ?= d); [destruct (N.even q)| |]; lia). clearbody q'.
  destruct (N.eqb_spec q' 0) as [|Hq]; [reflexivity|].
  destruct (N.eqb_spec q' (2 ^ Z.to_N (prec f))) as [E|E].
  - destruct (Z.ltb_spec (emax f) (e + 1)); [reflexivity|]. cbn [canonical].
    pose proof (pow2_pos (Z.to_N (prec f - 1))) as P1.
    assert (2 ^ Z.to_N (prec f - 1) < 2 ^ Z.to_N (prec f)) by (apply N.pow_lt_mono_r; lia).
    rewrite !andb_true_iff, orb_true_iff, !N.leb_le, N.ltb_lt, !Z.leb_le. repeat split; try lia.
  - destruct (Z.ltb_spec (emax f) e); [reflexivity|]. cbn [canonical].
    rewrite !andb_true_iff, orb_true_iff, !N.leb_le, N.ltb_lt, !Z.leb_le, Z.eqb_eq. repeat split; try lia.
Qed.
Lemma round_dec_canonical f neg D E : (1 < prec f)%Z -> canonical f (round_dec f neg D E) = true.
Proof.
  intros H. unfold round_dec. destruct (0 <=? E)%Z; apply round_ratio_canonical; auto; [lia|apply pow10_pos].
Qed.
Lemma parse_float_canonical f s x : (1 < prec f)%Z -> parse_float f s = Some x -> canonical f x = true.
Proof.
  intros Hp. unfold parse_float.
  destruct (match s with 45 :: r => (true, r) | 43 :: r => (false, r) | _ => (false, s) end) as [neg body].
  destruct (str_eqb _ _); [intros [= <-]; reflexivity|]. destruct (_ || _); [intros [= <-]; reflexivity|].
  unfold parse_float_body. destruct (span_digits body) as [ip r1].
  destruct (match r1 with 46 :: r => span_digits r | _ => ([], r1) end) as [fp r2].
  destruct (ip ++ fp) as [|c0 ds]; [discriminate|].
  destruct r2 as [|c r3]; [intros [= <-]; now apply round_dec_canonical|].
  destruct (_ || _); [|discriminate].
  destruct (match r3 with 45 :: r => (true, r) | 43 :: r => (false, r) | _ => (false, r3) end) as [eneg r4].
  destruct (span_digits r4) as [ed r5]. destruct ed; [discriminate|]. destruct r5; [|discriminate].
  intros [= <-]. now apply round_dec_canonical.
Qed.
Theorem parse_f64_canonical s x : parse_f64 s = Some x -> canonical F64 x = true.
Proof. apply parse_float_canonical. reflexivity. Qed.
