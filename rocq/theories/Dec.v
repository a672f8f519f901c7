(** Decimal / hexadecimal integer text, as produced and accepted by Rust's
    [to_string] / [str::parse] / [from_str_radix] for machine integers. *)
From Verif Require Import Base Str.
Ltac Zify.zify_post_hook ::= Z.to_euclidean_division_equations.

(** [ToString] for unsigned integers (std): decimal digits, no leading zeros. *)
Fixpoint dec_digits (fuel : nat) (n : N) (acc : str) : str :=
  match fuel with
  | O => acc
  | S f => let acc' := (48 + n mod 10) :: acc in
           if n / 10 =? 0 then acc' else dec_digits f (n / 10) acc'
  end.
Definition dec_of_N (n : N) : str := dec_digits (S (N.to_nat (N.log2 n))) n [].
(** [ToString] for signed integers *)
Definition dec_of_Z (z : Z) : str :=
  match z with
  | Zneg p => 45 :: dec_of_N (Npos p)
  | _ => dec_of_N (Z.to_N z)
  end.

(** [char::to_digit(radix)] *)
Definition to_digit (radix : N) (c : char) : option N :=
  let d := if (48 <=? c) && (c <=? 57) then Some (c - 48)
           else if (97 <=? c) && (c <=? 122) then Some (c - 87)
           else if (65 <=? c) && (c <=? 90) then Some (c - 55)
           else None in
  match d with Some v => if v <? radix then Some v else None | None => None end.

Fixpoint digits_val (radix : N) (s : str) (acc : N) : option N :=
  match s with
  | [] => Some acc
  | c :: r => match to_digit radix c with
              | Some d => digits_val radix r (acc * radix + d)
              | None => None
              end
  end.
(** at least one digit, digits only; the value is not bounded here *)
Definition nat_text (radix : N) (s : str) : option N :=
  match s with [] => None | _ => digits_val radix s 0 end.

(** [uN::from_str_radix] (std): one optional leading '+', at least one digit, overflow is an error. *)
Definition parse_uint (radix max : N) (s : str) : option N :=
  let body := match s with 43 :: r => r | _ => s end in
  match nat_text radix body with
  | Some v => if v <=? max then Some v else None
  | None => None
  end.
(** [iN::from_str] with range [-min, max] *)
Definition parse_int (min max : N) (s : str) : option Z :=
  match s with
  | 45 :: r => match nat_text 10 r with
               | Some v => if v <=? min then Some (- Z.of_N v)%Z else None
               | None => None
               end
  | _ => match parse_uint 10 max s with Some v => Some (Z.of_N v) | None => None end
  end.

Definition U8MAX : N := 255.
Definition U16MAX : N := 65535.
Definition U32MAX : N := 4294967295.
Definition U64MAX : N := 18446744073709551615.
Definition I32MAX : N := 2147483647.
Definition parse_u8 := parse_uint 10 U8MAX.
Definition parse_u16 := parse_uint 10 U16MAX.
Definition parse_u32 := parse_uint 10 U32MAX.
Definition parse_i32 := parse_int 2147483648 I32MAX.

(** ** Lemmas *)
Lemma digits_val_app radix a b acc :
  digits_val radix (a ++ b) acc =
  match digits_val radix a acc with Some v => digits_val radix b v | None => None end.
Proof.
  revert acc; induction a; simpl; intros acc; auto. destruct (to_digit radix a); auto.
Qed.

Definition is_digit (c : char) : bool := (48 <=? c) && (c <=? 57).

Lemma dec_digits_acc fuel n acc : dec_digits fuel n acc = dec_digits fuel n [] ++ acc.
Proof.
  revert n acc; induction fuel; intros n acc; cbn [dec_digits]; auto.
  destruct (n / 10 =? 0); auto.
  rewrite IHfuel. rewrite (IHfuel _ [48 + n mod 10]). now rewrite <- app_assoc.
Qed.
Lemma dec_digits_digits fuel n : forallb is_digit (dec_digits fuel n []) = true.
Proof.
  revert n; induction fuel; intros n; cbn [dec_digits]; auto.
  assert (is_digit (48 + n mod 10) = true).
  { unfold is_digit. assert (n mod 10 < 10) by (apply N.mod_lt; lia).
    apply andb_true_intro; split; apply N.leb_le; lia. }
  destruct (n / 10 =? 0); cbn [forallb]; [now rewrite H|].
  rewrite dec_digits_acc, forallb_app, IHfuel. cbn [forallb]. now rewrite H.
Qed.
Lemma to_digit_10 d : d < 10 -> to_digit 10 (48 + d) = Some d.
Proof.
  intros H. unfold to_digit. replace (48 <=? 48 + d) with true by (symmetry; apply N.leb_le; lia).
  replace (48 + d <=? 57) with true by (symmetry; apply N.leb_le; lia). cbv beta iota zeta delta [andb].
  replace (48 + d - 48) with d by lia. replace (d <? 10) with true by (symmetry; apply N.ltb_lt; lia).
  reflexivity.
Qed.
Lemma log2_div10 n : 10 <= n -> N.log2 (n / 10) < N.log2 n.
Proof.
  intros H. apply N.lt_le_trans with (m := N.succ (N.log2 (n / 10))); [lia|].
  rewrite <- N.log2_double; [|apply N.div_str_pos; lia].
  apply N.log2_le_mono. pose proof (N.mul_div_le n 10). lia.
Qed.
Lemma dec_digits_val fuel n acc : N.log2 n < N.of_nat fuel ->
  digits_val 10 (dec_digits fuel n []) acc = Some (acc * 10 ^ N.of_nat (length (dec_digits fuel n [])) + n).
Proof.
  revert n acc; induction fuel; intros n acc H; [lia|].
  cbn [dec_digits]. destruct (N.eqb_spec (n / 10) 0).
  - apply N.div_small_iff in e; [|lia]. cbn [digits_val length].
    rewrite N.mod_small by lia. rewrite to_digit_10; auto.
  - assert (10 <= n).
    { destruct (N.lt_ge_cases n 10); auto. rewrite N.div_small in n0; lia. }
    rewrite dec_digits_acc, digits_val_app, IHfuel.
    2:{ pose proof (log2_div10 n H0). lia. }
    cbn [digits_val]. rewrite to_digit_10 by (apply N.mod_lt; lia).
    f_equal. rewrite app_length. cbn [length]. rewrite Nat.add_1_r, Nat2N.inj_succ, N.pow_succ_r'.
    rewrite (N.div_mod' n 10) at 3. lia.
Qed.
Lemma dec_of_N_nonnil n : dec_of_N n <> [].
Proof.
  unfold dec_of_N. cbn [dec_digits]. destruct (n / 10 =? 0); [discriminate|].
  rewrite dec_digits_acc. intros H. apply app_eq_nil in H as [_ H]. discriminate.
Qed.
Lemma dec_of_N_digits n : forallb is_digit (dec_of_N n) = true.
Proof. apply dec_digits_digits. Qed.
Lemma nat_text_dec n : nat_text 10 (dec_of_N n) = Some n.
Proof.
  unfold nat_text. pose proof (dec_of_N_nonnil n). destruct (dec_of_N n) eqn:E; [congruence|].
  rewrite <- E. unfold dec_of_N. rewrite dec_digits_val; [f_equal; lia|].
  rewrite Nat2N.inj_succ, N2Nat.id. lia.
Qed.
Lemma dec_of_N_head n : exists d r, dec_of_N n = d :: r /\ is_digit d = true /\ forallb is_digit r = true.
Proof.
  pose proof (dec_of_N_nonnil n). pose proof (dec_of_N_digits n).
  destruct (dec_of_N n) as [|d r]; [congruence|]. simpl in H0.
  apply andb_prop in H0 as []. eauto.
Qed.
Lemma is_digit_range d : is_digit d = true -> 48 <= d <= 57.
Proof. unfold is_digit. intros H. apply andb_prop in H as [H1 H2]. apply N.leb_le in H1, H2. lia. Qed.
Lemma parse_uint_nosign radix max s : hd 0 s <> 43 ->
  parse_uint radix max s = match nat_text radix s with
    Some v => if v <=? max then Some v else None | None => None end.
Proof.
  intros H. unfold parse_uint. destruct s as [|c s]; auto. simpl in H.
  destruct c as [|p]; auto. repeat (destruct p; auto). congruence.
Qed.
Lemma parse_uint_dec max n : n <= max -> parse_uint 10 max (dec_of_N n) = Some n.
Proof.
  intros H. rewrite parse_uint_nosign.
  - rewrite nat_text_dec. replace (n <=? max) with true; auto. symmetry. now apply N.leb_le.
  - destruct (dec_of_N_head n) as (d & r & -> & Hd & _). simpl. apply is_digit_range in Hd. lia.
Qed.
Lemma parse_int_nosign min max s : hd 0 s <> 45 ->
  parse_int min max s = match parse_uint 10 max s with Some v => Some (Z.of_N v) | None => None end.
Proof.
  intros H. unfold parse_int. destruct s as [|c s]; auto. simpl in H.
  destruct c as [|p]; auto. repeat (destruct p; auto). congruence.
Qed.
Lemma parse_int_dec min max z : (- Z.of_N min <= z <= Z.of_N max)%Z ->
  parse_int min max (dec_of_Z z) = Some z.
Proof.
  intros H. destruct z as [|p|p].
  - change (dec_of_Z 0) with (dec_of_N 0). rewrite parse_int_nosign by discriminate.
    rewrite parse_uint_dec by lia. reflexivity.
  - unfold dec_of_Z. rewrite parse_int_nosign.
    + rewrite parse_uint_dec by lia. f_equal; lia.
    + destruct (dec_of_N_head (Z.to_N (Zpos p))) as (d & r & -> & Hd & _). simpl.
      apply is_digit_range in Hd. lia.
  - unfold dec_of_Z, parse_int. rewrite nat_text_dec.
    replace (N.pos p <=? min) with true; [reflexivity|]. symmetry. apply N.leb_le. lia.
Qed.
Lemma parse_u8_dec n : n <= U8MAX -> parse_u8 (dec_of_N n) = Some n.
Proof. apply parse_uint_dec. Qed.
Lemma parse_u16_dec n : n <= U16MAX -> parse_u16 (dec_of_N n) = Some n.
Proof. apply parse_uint_dec. Qed.
Lemma parse_u32_dec n : n <= U32MAX -> parse_u32 (dec_of_N n) = Some n.
Proof. apply parse_uint_dec. Qed.
Lemma dec_of_N_inj a b : dec_of_N a = dec_of_N b -> a = b.
Proof. intros H. pose proof (nat_text_dec a). pose proof (nat_text_dec b). congruence. Qed.
Lemma dec_of_N_notin n c : is_digit c = false -> ~ In c (dec_of_N n).
Proof.
  intros H Hin. pose proof (dec_of_N_digits n) as F. rewrite forallb_forall in F.
  apply F in Hin. congruence.
Qed.
(** no leading zero *)
Lemma dec_digits_lead fuel n : n <> 0 -> N.log2 n < N.of_nat fuel -> hd 0 (dec_digits fuel n []) <> 48.
Proof.
  revert n; induction fuel; intros n Hn Hl; [lia|]. cbn [dec_digits].
  destruct (N.eqb_spec (n / 10) 0).
  - apply N.div_small_iff in e; [|lia]. cbn [hd]. rewrite N.mod_small; lia.
  - assert (10 <= n).
    { destruct (N.lt_ge_cases n 10); auto. rewrite N.div_small in n0; lia. }
    rewrite dec_digits_acc. specialize (IHfuel (n / 10) n0).
    pose proof (log2_div10 n H).
    destruct (dec_digits fuel (n / 10) []) eqn:E; cbn [hd app] in *; [|apply IHfuel; lia].
    destruct fuel; [lia|]. exfalso. cbn [dec_digits] in E.
    destruct (n / 10 / 10 =? 0); [discriminate|]. rewrite dec_digits_acc in E.
    apply app_eq_nil in E as [_ E]. discriminate.
Qed.
Lemma dec_of_N_lead n : n <> 0 -> hd 0 (dec_of_N n) <> 48.
Proof. intros H. apply dec_digits_lead; auto. rewrite Nat2N.inj_succ, N2Nat.id. lia. Qed.
Lemma dec_of_N_0 : dec_of_N 0 = [48].
Proof. reflexivity. Qed.
