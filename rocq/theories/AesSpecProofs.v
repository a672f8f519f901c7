(** Lemmas for P_Cipher.v: the cipher of Aes.v is AES-128 as SpecAes.v has it. *)
From Coq Require Import Btauto.
From Verif Require Import Base Str Spec Aes AesProofs Crypto CryptoProofs SpecAes.

(** ** Multiplication *)
Lemma poly_mul_0 a : poly_mul a 0 = 0. Proof. reflexivity. Qed.
Definition unhigh (h : N) : N := N.lxor h (N.lxor (N.shiftr h 4) (N.lxor (N.shiftr h 5) (N.shiftr h 7))).
Lemma unhigh_mod q : q < 256 -> unhigh (N.shiftr (poly_mul MODULUS q) 8) = q.
Proof. intros H. apply N.eqb_eq. apply (sweep1 (fun q => unhigh (N.shiftr (poly_mul MODULUS q) 8) =? q)); [vm_compute; reflexivity|exact H]. Qed.
Lemma shiftr_small c : c < 256 -> N.shiftr c 8 = 0.
Proof. intros H. rewrite N.shiftr_div_pow2. now apply N.div_small. Qed.
Lemma congruent_fun p c d : congruent p c -> congruent p d -> c = d.
Proof.
  intros (C & q & Q & E) (D & r & R & F). assert (q = r) as ->.
  { apply (f_equal (fun x => N.shiftr x 8)) in E, F. rewrite N.shiftr_lxor, (shiftr_small c C), N.lxor_0_r in E. rewrite N.shiftr_lxor, (shiftr_small d D), N.lxor_0_r in F.
    rewrite <- (unhigh_mod q Q), <- (unhigh_mod r R). congruence. }
  rewrite E in F. apply (f_equal (N.lxor (poly_mul MODULUS r))) in F. now rewrite <- !N.lxor_assoc, !N.lxor_nilpotent, !N.lxor_0_l in F.
Qed.
Definition quotient (p : N) : N := unhigh (N.shiftr p 8).
Definition residue (p : N) : N := N.lxor (poly_mul MODULUS (quotient p)) p.
Definition congruentb (p c : N) : bool := (quotient p <? 256) && (c =? residue p) && (c <? 256).
Lemma congruentb_ok p c : congruentb p c = true -> congruent p c.
Proof.
  unfold congruentb. rewrite !andb_true_iff, !N.ltb_lt, N.eqb_eq. intros [[Q ->] C]. split; [exact C|]. exists (quotient p). split; [exact Q|].
  unfold residue. rewrite <- N.lxor_assoc, N.lxor_nilpotent. now rewrite N.lxor_0_l.
Qed.
Lemma mul1 a : a < 256 -> gf_mul 1 a a.
Proof. intros H. apply congruentb_ok. apply (sweep1 (fun a => congruentb (poly_mul 1 a) a)); [vm_compute; reflexivity|exact H]. Qed.
Lemma mul2 a : a < 256 -> gf_mul 2 a (m2 a).
Proof. intros H. apply congruentb_ok. apply (sweep1 (fun a => congruentb (poly_mul 2 a) (m2 a))); [vm_compute; reflexivity|exact H]. Qed.
Lemma mul3 a : a < 256 -> gf_mul 3 a (m3 a).
Proof. intros H. apply congruentb_ok. apply (sweep1 (fun a => congruentb (poly_mul 3 a) (m3 a))); [vm_compute; reflexivity|exact H]. Qed.
Lemma congruent_residue p c : congruent p c -> residue p = c.
Proof.
  intros (C & q & Q & E). unfold residue, quotient. rewrite E, N.shiftr_lxor, (shiftr_small c C), N.lxor_0_r, (unhigh_mod q Q).
  now rewrite <- N.lxor_assoc, N.lxor_nilpotent, N.lxor_0_l.
Qed.
(** the inverse, from the affine map: bit [i] of it is the sum of the bits [i + 2], [i + 5], [i + 7] of the image, plus 5 *)
Definition unaffine (y : N) : N :=
  fold_right N.lxor 0 (map (fun i => if xorb (N.testbit 5 i) (xorb (N.testbit y ((i + 2) mod 8)) (xorb (N.testbit y ((i + 5) mod 8)) (N.testbit y ((i + 7) mod 8)))) then N.shiftl 1 i else 0) [0; 1; 2; 3; 4; 5; 6; 7]).
Definition inverse_of (a : N) : N := unaffine (sbox a).
Lemma inverse_lt a : a < 256 -> inverse_of a < 256.
Proof. intros H. apply N.ltb_lt. apply (sweep1 (fun a => inverse_of a <? 256)); [vm_compute; reflexivity|exact H]. Qed.
Lemma inverse_ok a : a < 256 -> gf_inverse a (inverse_of a).
Proof.
  intros H. split; [now apply inverse_lt|]. destruct (N.eqb_spec a 0) as [->|Z]; [left; split; reflexivity|right]. apply congruentb_ok.
  assert (X : (a =? 0) || congruentb (poly_mul a (inverse_of a)) 1 = true); [|apply orb_true_iff in X as [X|X]; [apply N.eqb_eq in X; contradiction|exact X]].
  apply (sweep1 (fun a => (a =? 0) || congruentb (poly_mul a (inverse_of a)) 1)); [vm_compute; reflexivity|exact H].
Qed.
Lemma inverse_only a b : a < 256 -> gf_inverse a b -> b = inverse_of a.
Proof.
  intros H (B & [[-> ->]|M]); [reflexivity|]. apply congruent_residue in M.
  assert (X : negb (residue (poly_mul a b) =? 1) || (b =? inverse_of a) = true).
  { apply (sweep2 (fun a b => negb (residue (poly_mul a b) =? 1) || (b =? inverse_of a))); [|exact H|exact B]. vm_compute. reflexivity. }
  rewrite M in X. now apply N.eqb_eq.
Qed.
(** ** Substitution *)
Definition affine_bit (b i : N) : bool := fold_right xorb (N.testbit 0x63 i) (map (fun k => N.testbit b ((i + k) mod 8)) [0; 4; 5; 6; 7]).
Lemma affine_ok a i : a < 256 -> i < 8 -> N.testbit (sbox a) i = affine_bit (inverse_of a) i.
Proof.
  intros H I. apply Bool.eqb_prop.
  assert (X : forallb (fun i => Bool.eqb (N.testbit (sbox a) i) (affine_bit (inverse_of a) i)) [0; 1; 2; 3; 4; 5; 6; 7] = true).
  { apply (sweep1 (fun a => forallb (fun i => Bool.eqb (N.testbit (sbox a) i) (affine_bit (inverse_of a) i)) [0; 1; 2; 3; 4; 5; 6; 7])); [vm_compute; reflexivity|exact H]. }
  rewrite forallb_forall in X. apply X. cbn [In]. lia.
Qed.
Lemma high_bit a i : a < 256 -> 8 <= i -> N.testbit a i = false.
Proof.
  intros H I. destruct (N.eqb_spec a 0) as [->|Z]; [apply N.bits_0|]. apply N.bits_above_log2. apply N.lt_le_trans with 8; [|exact I].
  apply N.log2_lt_pow2; [lia|exact H].
Qed.
Lemma sub_byte_iff a y : a < 256 -> (sub_byte a y <-> y = sbox a).
Proof.
  intros H. split.
  - intros (Y & b & B & F). apply inverse_only in B as ->; [|exact H]. apply N.bits_inj. intros i. destruct (N.ltb_spec i 8) as [I|I].
    + rewrite (F i I), (affine_ok a i H I). reflexivity.
    + rewrite !high_bit; auto. now apply sbox_lt.
  - intros ->. split; [now apply sbox_lt|]. exists (inverse_of a). split; [now apply inverse_ok|]. intros i I. now apply affine_ok.
Qed.
Lemma sub_bytes_iff s t : Forall (fun b => b < 256) s -> (sub_bytes s t <-> t = map sbox s).
Proof.
  intros H. unfold sub_bytes. split.
  - intros F. induction F as [|a y s t X F IH]; [reflexivity|]. inversion H; subst. cbn [map]. rewrite <- IH by assumption. f_equal. now apply sub_byte_iff in X.
  - intros ->. induction H; cbn [map]; constructor; [now apply sub_byte_iff|assumption].
Qed.
(** ** Blocks *)
Lemma nth_eq16 (s t : list N) : length s = 16%nat -> length t = 16%nat -> (forall r c, (r < 4)%nat -> (c < 4)%nat -> at_ s r c = at_ t r c) -> s = t.
Proof.
  intros S T H. apply (nth_ext _ _ 0 0); [congruence|]. intros n L. rewrite S in L. specialize (H (n mod 4) (n / 4))%nat. unfold at_ in H.
  replace (n mod 4 + 4 * (n / 4))%nat with n in H by (pose proof (Nat.div_mod n 4); lia). apply H; [apply Nat.mod_upper_bound; lia|]. apply Nat.div_lt_upper_bound; lia.
Qed.
Ltac four r L := destruct r as [|[|[|[|r]]]]; [| | | |exfalso; clear -L; lia].
Lemma shift_at s : state s -> forall r c, (r < 4)%nat -> (c < 4)%nat -> at_ (shift_rows s) r c = at_ s r ((c + r) mod 4).
Proof.
  intros H. destruct (state_ex s H) as (b0&b1&b2&b3&b4&b5&b6&b7&b8&b9&b10&b11&b12&b13&b14&b15&->). intros r c R C.
  four r R; four c C; reflexivity.
Qed.
Lemma rows_iff s t : state s -> (rows_shifted s t <-> t = shift_rows s).
Proof.
  intros H. split.
  - intros (L & F). apply nth_eq16; [exact L|apply (shift_state s H)|]. intros r c R C. rewrite (F r c R C). symmetry. now apply shift_at.
  - intros ->. split; [apply (shift_state s H)|now apply shift_at].
Qed.
Lemma at_lt s r c : state s -> at_ s r c < 256.
Proof.
  intros [_ F]. unfold at_. destruct (Nat.ltb_spec (r + 4 * c) (length s)); [|rewrite nth_overflow by assumption; lia].
  rewrite Forall_forall in F. apply F. now apply nth_In.
Qed.
Definition coef_mul (k : N) (a : N) : N := if k =? 1 then a else if k =? 2 then m2 a else m3 a.
Lemma coef_ok r k a : (r < 4)%nat -> (k < 4)%nat -> a < 256 -> gf_mul (coefficient r k) a (coef_mul (coefficient r k) a).
Proof.
  intros R K A. assert (X : coefficient r k = 1 \/ coefficient r k = 2 \/ coefficient r k = 3) by (four r R; four k K; cbv; auto).
  destruct X as [->|[->| ->]]; cbn; [now apply mul1|now apply mul2|now apply mul3].
Qed.
Lemma mix_at s : state s -> forall r c, (r < 4)%nat -> (c < 4)%nat ->
  at_ (mix_columns s) r c = fold_right N.lxor 0 (map (fun k => coef_mul (coefficient r k) (at_ s k c)) [0; 1; 2; 3]%nat).
Proof.
  intros H. destruct (state_ex s H) as (b0&b1&b2&b3&b4&b5&b6&b7&b8&b9&b10&b11&b12&b13&b14&b15&->). intros r c R C.
  four r R; four c C; unfold at_, mix_columns, mix_col; cbn [app nth Nat.mul Nat.add map fold_right]; unfold coef_mul; cbn [coefficient nth Nat.modulo Nat.divmod Nat.sub Nat.add fst snd N.eqb Pos.eqb]; rewrite ?N.lxor_0_r; xor_ac.
Qed.
Lemma mixed_iff s t : state s -> (columns_mixed s t <-> t = mix_columns s).
Proof.
  intros H. split.
  - intros (L & F). apply nth_eq16; [exact L|apply (mix_state s H)|]. intros r c R C. destruct (F r c R C) as (p & P & ->). rewrite (mix_at s H r c R C). f_equal.
    apply map_ext_in. intros k K. assert (K' : (k < 4)%nat) by (cbn [In] in K; lia). eapply congruent_fun; [exact (P k K')|]. apply coef_ok; auto. now apply at_lt.
  - intros ->. split; [apply (mix_state s H)|]. intros r c R C. eexists. split; [|now apply mix_at]. intros k K. apply coef_ok; auto. now apply at_lt.
Qed.
Lemma added_iff s k t : length s = 16%nat -> length k = 16%nat -> (added s k t <-> t = xor_list s k).
Proof.
  intros S K. assert (L : length (xor_list s k) = 16%nat) by (rewrite xor_list_length; congruence). split.
  - intros (T & F). apply (nth_ext _ _ 0 0); [congruence|]. intros n N1. rewrite (F n) by lia. symmetry. apply nth_xor_list; lia.
  - intros ->. split; [exact L|]. intros j J. apply nth_xor_list; lia.
Qed.
(** ** Key expansion *)
Definition RCONS : list N := [1; 2; 4; 8; 16; 32; 64; 128; 27; 54].
Definition keys (key : list N) (i : nat) : list N := nth i (key :: expand key RCONS) [].
Definition word (k : list N) (m : nat) : list N := firstn 4 (skipn (4 * m) k).
Definition words (key : list N) (n : nat) : list N := word (keys key (n / 4)) (n mod 4).
Lemma keys_S_gen R k i : (i < length R)%nat -> nth (S i) (k :: expand k R) [] = next_round_key (nth i (k :: expand k R) []) (nth i R 0).
Proof.
  revert k i. induction R as [|r R IH]; intros k i L; [cbn in L; lia|]. destruct i as [|i]; [reflexivity|].
  change (nth (S (S i)) (k :: expand k (r :: R)) []) with (nth (S i) (next_round_key k r :: expand (next_round_key k r) R) []).
  rewrite IH by (cbn in L; lia). reflexivity.
Qed.
Lemma keys_S key i : (i < 10)%nat -> keys key (S i) = next_round_key (keys key i) (nth i RCONS 0).
Proof. intros H. apply keys_S_gen. exact H. Qed.
Lemma keys_state key i : state key -> (i <= 10)%nat -> state (keys key i).
Proof.
  intros K. induction i as [|i IH]; intros H; [exact K|]. rewrite keys_S by lia. apply next_round_key_state; [apply IH; lia|].
  assert (F : Forall (fun b => b < 256) RCONS) by repeat constructor. rewrite Forall_forall in F. apply F. apply nth_In. cbn. lia.
Qed.
Lemma constants i : (i < 10)%nat -> round_constant (S i) (nth i RCONS 0).
Proof. intros H. apply congruentb_ok. do 10 (destruct i as [|i]; [vm_compute; reflexivity|]). lia. Qed.
Lemma word_added_iff a b c : length a = 4%nat -> length b = 4%nat -> (word_added a b c <-> c = xor_list a b).
Proof.
  intros A B. assert (L : length (xor_list a b) = 4%nat) by (rewrite xor_list_length; congruence). split.
  - intros (T & F). apply (nth_ext _ _ 0 0); [congruence|]. intros n N1. rewrite (F n) by lia. symmetry. apply nth_xor_list; lia.
  - intros ->. split; [exact L|]. intros j J. apply nth_xor_list; lia.
Qed.
Lemma word_length k m : state k -> (m < 4)%nat -> length (word k m) = 4%nat.
Proof. intros [L _] M. unfold word. rewrite firstn_length, skipn_length. lia. Qed.
Lemma word_lt k m : state k -> Forall (fun b => b < 256) (word k m).
Proof. intros [_ F]. unfold word. apply Forall_forall. intros x X. rewrite Forall_forall in F. apply F.
  rewrite <- (firstn_skipn (4 * m) k). apply in_or_app. right. rewrite <- (firstn_skipn 4 (skipn (4 * m) k)). apply in_or_app. now left.
Qed.
Definition rotate (w : list N) : list N := tl w ++ firstn 1 w.
Lemma first_word k rc : state k -> word (next_round_key k rc) 0 = xor_list (word k 0) (xor_list (map sbox (rotate (word k 3))) [rc; 0; 0; 0]).
Proof.
  intros H. destruct (state_ex k H) as (b0&b1&b2&b3&b4&b5&b6&b7&b8&b9&b10&b11&b12&b13&b14&b15&->).
  unfold word, next_round_key, rotate. cbn [Nat.mul Nat.add skipn firstn tl app map xor_list]. now rewrite !N.lxor_0_r.
Qed.
Lemma next_word k rc m : state k -> (m < 3)%nat -> word (next_round_key k rc) (S m) = xor_list (word k (S m)) (word (next_round_key k rc) m).
Proof.
  intros H M. destruct (state_ex k H) as (b0&b1&b2&b3&b4&b5&b6&b7&b8&b9&b10&b11&b12&b13&b14&b15&->).
  destruct m as [|[|[|]]]; [reflexivity..|lia].
Qed.
Lemma divmod4 q m : (m < 4)%nat -> ((4 * q + m) / 4 = q /\ (4 * q + m) mod 4 = m)%nat.
Proof.
  intros M. replace (4 * q + m)%nat with (m + q * 4)%nat by lia. rewrite Nat.div_add, Nat.mod_add by lia. now rewrite Nat.div_small, Nat.mod_small by lia.
Qed.
Lemma words_at key q m : (m < 4)%nat -> words key (4 * q + m) = word (keys key q) m.
Proof. intros M. unfold words. now destruct (divmod4 q m M) as [-> ->]. Qed.
Definition step (w : nat -> list N) (i : nat) : Prop :=
  if (i mod 4 =? 0)%nat
     then exists rotated subbed rc t, rotated = tl (w (i - 1)%nat) ++ firstn 1 (w (i - 1)%nat) /\ sub_bytes rotated subbed /\
            round_constant (i / 4) rc /\ word_added subbed [rc; 0; 0; 0] t /\ word_added (w (i - 4)%nat) t (w i)
     else word_added (w (i - 4)%nat) (w (i - 1)%nat) (w i).
Lemma step_iff key w i : state key -> (4 <= i < 44)%nat -> w (i - 1)%nat = words key (i - 1) -> w (i - 4)%nat = words key (i - 4) -> (step w i <-> w i = words key i).
Proof.
  intros K I P Q. assert (M : (i mod 4 < 4)%nat) by (apply Nat.mod_upper_bound; lia). pose proof (Nat.div_mod i 4 ltac:(lia)) as E.
  destruct (i / 4)%nat as [|q] eqn:Eq; [lia|]. destruct (i mod 4)%nat as [|m] eqn:Em.
  - assert (R : (q < 10)%nat) by lia. assert (KS : state (keys key q)) by (apply keys_state; auto; lia).
    assert (W1 : words key (i - 1) = word (keys key q) 3) by (rewrite <- words_at by lia; f_equal; lia).
    assert (W4 : words key (i - 4) = word (keys key q) 0) by (rewrite <- words_at by lia; f_equal; lia).
    assert (W0 : words key i = xor_list (word (keys key q) 0) (xor_list (map sbox (rotate (word (keys key q) 3))) [nth q RCONS 0; 0; 0; 0])).
    { rewrite <- first_word, <- keys_S, <- words_at by (assumption || lia). f_equal. lia. }
    unfold step. rewrite Em, Eq, P, Q, W0, W1, W4. cbn [Nat.eqb]. fold (rotate (word (keys key q) 3)).
    assert (L3 : length (rotate (word (keys key q) 3)) = 4%nat).
    { unfold rotate. pose proof (word_length _ 3 KS ltac:(lia)) as L. destruct (word (keys key q) 3) as [|x [|y [|z [|u [|]]]]]; try discriminate. reflexivity. }
    assert (F3 : Forall (fun b => b < 256) (rotate (word (keys key q) 3))).
    { unfold rotate. pose proof (word_lt _ 3 KS) as F. pose proof (word_length _ 3 KS ltac:(lia)) as L. destruct (word (keys key q) 3) as [|x r]; [discriminate|]. inversion F; subst.
      cbn [tl firstn]. apply Forall_app. auto. }
    assert (L0 := word_length _ 0 KS ltac:(lia)).
    assert (LX : forall rc, length (xor_list (map sbox (rotate (word (keys key q) 3))) [rc; 0; 0; 0]) = 4%nat) by (intros rc; rewrite xor_list_length; rewrite map_length; auto).
    split.
    + intros (ro & su & rc & t & -> & S & C & T & W). apply sub_bytes_iff in S as ->; [|exact F3]. rewrite <- (congruent_fun _ _ _ (constants q R) C) in T.
      apply word_added_iff in T as ->; [|now rewrite map_length|reflexivity]. apply word_added_iff in W; auto.
    + intros W. eexists _, _, _, _. split; [reflexivity|]. split; [now apply sub_bytes_iff|]. split; [now apply constants|]. split; [apply word_added_iff; [now rewrite map_length|reflexivity|reflexivity]|].
      apply word_added_iff; auto.
  - assert (R : (q < 10)%nat) by lia. assert (KS : state (keys key q)) by (apply keys_state; auto; lia). assert (KT : state (keys key (S q))) by (apply keys_state; auto; lia).
    assert (W1 : words key (i - 1) = word (keys key (S q)) m) by (rewrite <- words_at by lia; f_equal; lia).
    assert (W4 : words key (i - 4) = word (keys key q) (S m)) by (rewrite <- words_at by lia; f_equal; lia).
    assert (W0 : words key i = xor_list (word (keys key q) (S m)) (word (keys key (S q)) m)).
    { rewrite (keys_S key q R), <- next_word, <- keys_S, <- words_at by (assumption || lia). f_equal. lia. }
    unfold step. rewrite Em, P, Q, W0, W1, W4. cbn [Nat.eqb]. apply word_added_iff; apply word_length; auto; lia.
Qed.
Lemma scheduled_iff key w : state key -> (scheduled key w <-> forall n, (n < 44)%nat -> w n = words key n).
Proof.
  intros K. assert (B : forall i, (i < 4)%nat -> words key i = firstn 4 (skipn (4 * i) key)).
  { intros i I. exact (words_at key 0 i I). }
  split.
  - intros (A & S) n. induction n as [n IH] using (well_founded_induction lt_wf). intros L. destruct (Nat.ltb_spec n 4) as [X|X].
    + now rewrite (A n X), B.
    + apply (step_iff key w n K ltac:(lia) (IH (n - 1)%nat ltac:(lia) ltac:(lia)) (IH (n - 4)%nat ltac:(lia) ltac:(lia))). apply S. lia.
  - intros H. split; [intros i I; rewrite H by lia; now apply B|]. intros i I. apply (step_iff key w i K I); apply H; lia.
Qed.
Lemma key_words k : state k -> word k 0 ++ word k 1 ++ word k 2 ++ word k 3 = k.
Proof. intros H. destruct (state_ex k H) as (b0&b1&b2&b3&b4&b5&b6&b7&b8&b9&b10&b11&b12&b13&b14&b15&->). reflexivity. Qed.
Lemma round_key_keys key w i : state key -> (i <= 10)%nat -> (forall n, (n < 44)%nat -> w n = words key n) -> round_key w i = keys key i.
Proof.
  intros K I H. unfold round_key. rewrite <- (key_words _ (keys_state key i K I)). rewrite (H (4 * i)%nat), !H by lia. rewrite !words_at by lia.
  replace (4 * i)%nat with (4 * i + 0)%nat at 1 by lia. now rewrite words_at by lia.
Qed.
(** ** The cipher *)
Lemma expand_length R k : length (expand k R) = length R.
Proof. revert k. induction R; intros k; cbn [expand length]; auto. Qed.
Lemma expand_prefix R R' k i : (i < length R)%nat -> nth i (expand k (R ++ R')) [] = nth i (expand k R) [].
Proof. revert k i. induction R as [|r R IH]; intros k i H; [cbn in H; lia|]. cbn [app expand nth]. destruct i; [reflexivity|]. apply IH. cbn in H. lia. Qed.
Lemma mid_nth key i : (i < 9)%nat -> nth i (mid_keys key) [] = keys key (S i).
Proof. intros H. unfold mid_keys, keys. change RCONS with ([1; 2; 4; 8; 16; 32; 64; 128; 27] ++ [54]). cbn [nth]. symmetry. now apply expand_prefix. Qed.
Lemma last_is key : last_key key = keys key 10.
Proof.
  unfold last_key, keys. fold RCONS. pose proof (expand_length RCONS key) as L. destruct (expand key RCONS) as [|x l]; [discriminate|].
  change (nth 10 (key :: x :: l) []) with (nth 9 (x :: l) []). rewrite (nth_indep _ [] key) by (rewrite L; cbn; lia).
  change 9%nat with (pred (length RCONS)). rewrite <- L. generalize (x :: l). intros m. clear. induction m as [|y m IH]; [reflexivity|]. cbn [last length pred nth]. destruct m; [reflexivity|exact IH].
Qed.
Lemma mid_length key : length (mid_keys key) = 9%nat. Proof. apply expand_length. Qed.
Definition after (key s : list N) (i : nat) : list N := fold_left enc_round (firstn i (mid_keys key)) (xor_list s key).
Lemma firstn_S {A} (l : list A) d i : (i < length l)%nat -> firstn (S i) l = firstn i l ++ [nth i l d].
Proof. revert i. induction l as [|x l IH]; intros i H; [cbn in H; lia|]. destruct i as [|i]; [reflexivity|]. cbn [firstn nth app] in *. f_equal. apply IH. cbn in H. lia. Qed.
Lemma after_S key s i : (i < 9)%nat -> after key s (S i) = enc_round (after key s i) (keys key (S i)).
Proof. intros H. unfold after. rewrite (firstn_S _ []) by (rewrite mid_length; exact H). rewrite fold_left_app. cbn [fold_left]. now rewrite mid_nth. Qed.
Lemma after_state key s i : state key -> state s -> (i <= 9)%nat -> state (after key s i).
Proof.
  intros K S. induction i as [|i IH]; intros H; [now apply xor_state|]. rewrite after_S by lia. apply enc_round_state; [apply IH; lia|]. apply keys_state; auto; lia.
Qed.
Lemma aes_iff key s t : state key -> state s -> (aes_128 key s t <-> t = aes_encrypt_block key s).
Proof.
  intros K S. assert (E : aes_encrypt_block key s = xor_list (shift_rows (map sbox (after key s 9))) (keys key 10)).
  { unfold aes_encrypt_block, after. rewrite <- (mid_length key), firstn_all, last_is. reflexivity. }
  rewrite E. clear E.
  assert (RD : forall u k a b c v, state u -> state k -> sub_bytes u a -> rows_shifted a b -> columns_mixed b c -> added c k v -> v = enc_round u k).
  { intros u k a b c v U Kk A B C V. apply sub_bytes_iff in A as ->; [|apply U]. apply rows_iff in B as ->; [|now apply sub_state]. apply mixed_iff in C as ->; [|now apply shift_state, sub_state].
    apply added_iff in V; [exact V|apply mix_state; now apply shift_state, sub_state|apply Kk]. }
  split.
  - intros (w & st & W & A0 & R & a & b & A & B & C). pose proof (proj1 (scheduled_iff key w K) W) as WW.
    assert (RK : forall i, (i <= 10)%nat -> round_key w i = keys key i) by (intros i I; now apply round_key_keys).
    assert (ST : forall i, (i <= 9)%nat -> st i = after key s i).
    { induction i as [|i IH]; intros I.
      - rewrite RK in A0 by lia. apply added_iff in A0; [exact A0|apply S|apply K].
      - destruct (R (Datatypes.S i) ltac:(lia)) as (x & y & z & X & Y & Z & V). replace (Datatypes.S i - 1)%nat with i in X by lia. rewrite (IH ltac:(lia)) in X. rewrite RK in V by lia.
        rewrite after_S by lia. apply (RD _ _ x y z); auto; [apply after_state; auto; lia|apply keys_state; auto; lia]. }
    rewrite (ST 9%nat ltac:(lia)) in A. rewrite RK in C by lia. pose proof (after_state key s 9 K S ltac:(lia)) as S9.
    apply sub_bytes_iff in A as ->; [|apply S9]. apply rows_iff in B as ->; [|now apply sub_state]. apply added_iff in C; [exact C|now apply shift_state, sub_state|]. apply keys_state; auto; lia.
  - intros ->. exists (words key), (after key s). split; [now apply scheduled_iff|].
    assert (RK : forall i, (i <= 10)%nat -> round_key (words key) i = keys key i) by (intros i I; now apply round_key_keys).
    split; [rewrite RK by lia; apply added_iff; [apply S|apply K|reflexivity]|]. split.
    + intros [|i] I; [lia|]. replace (Datatypes.S i - 1)%nat with i by lia. rewrite RK, after_S by lia. assert (U : state (after key s i)) by (apply after_state; auto; lia).
      eexists _, _, _. split; [apply sub_bytes_iff; [apply U|reflexivity]|]. split; [apply rows_iff; [now apply sub_state|reflexivity]|]. split; [apply mixed_iff; [now apply shift_state, sub_state|reflexivity]|].
      apply added_iff; [apply mix_state; now apply shift_state, sub_state|apply keys_state; auto; lia|reflexivity].
    + assert (U : state (after key s 9)) by (apply after_state; auto). eexists _, _. split; [apply sub_bytes_iff; [apply U|reflexivity]|]. split; [apply rows_iff; [now apply sub_state|reflexivity]|].
      rewrite RK by lia. apply added_iff; [now apply shift_state, sub_state|apply keys_state; auto; lia|reflexivity].
Qed.
(** ** The inverse cipher, the other way round *)
Lemma inv_sbox_sbox b : b < 256 -> sbox (inv_sbox b) = b.
Proof. intros H. apply N.eqb_eq. apply (sweep1 (fun b => sbox (inv_sbox b) =? b)); [vm_compute; reflexivity|assumption]. Qed.
Lemma shift_unshift s : state s -> shift_rows (inv_shift_rows s) = s.
Proof. intros H. destruct (state_ex s H) as (b0&b1&b2&b3&b4&b5&b6&b7&b8&b9&b10&b11&b12&b13&b14&b15&->). reflexivity. Qed.
Lemma m2_lxor a b : a < 256 -> b < 256 -> m2 (N.lxor a b) = N.lxor (m2 a) (m2 b). Proof. lin. Qed.
Lemma m3_lxor a b : a < 256 -> b < 256 -> m3 (N.lxor a b) = N.lxor (m3 a) (m3 b). Proof. lin. Qed.
Ltac sweep f H := apply N.eqb_eq; apply (sweep1 f); [vm_compute; reflexivity|exact H].
Lemma comm a : a < 256 -> m2 (m14 a) = m14 (m2 a) /\ m2 (m11 a) = m11 (m2 a) /\ m2 (m13 a) = m13 (m2 a) /\ m2 (m9 a) = m9 (m2 a) /\
  m3 (m14 a) = m14 (m3 a) /\ m3 (m11 a) = m11 (m3 a) /\ m3 (m13 a) = m13 (m3 a) /\ m3 (m9 a) = m9 (m3 a).
Proof. intros H. unfold m2, m3, m9, m11, m13, m14. repeat split; rewrite ?xtime_lxor by (repeat first [apply lxor_lt|apply xtime_lt|assumption]); xor_ac. Qed.
Local Opaque m2 m3 m9 m11 m13 m14.
Lemma mix_unmix_col a b c d : a < 256 -> b < 256 -> c < 256 -> d < 256 ->
  match inv_mix_col a b c d with [x; y; z; w] => mix_col x y z w = [a; b; c; d] | _ => False end.
Proof.
  intros Ha Hb Hc Hd. unfold mix_col, inv_mix_col.
  rewrite ?m2_lxor, ?m3_lxor by (repeat first [apply lxor_lt|apply m9_lt|apply m11_lt|apply m13_lt|apply m14_lt|assumption]).
  destruct (comm a Ha) as (-> & -> & -> & -> & -> & -> & -> & ->). destruct (comm b Hb) as (-> & -> & -> & -> & -> & -> & -> & ->).
  destruct (comm c Hc) as (-> & -> & -> & -> & -> & -> & -> & ->). destruct (comm d Hd) as (-> & -> & -> & -> & -> & -> & -> & ->).
  f_equal; [|f_equal; [|f_equal; [|f_equal]]].
  - rewrite (diag a Ha), (off1 b Hb), (off2 c Hc), (off3 d Hd). xor_ac.
  - rewrite (off3 a Ha), (diag b Hb), (off1 c Hc), (off2 d Hd). xor_ac.
  - rewrite (off2 a Ha), (off3 b Hb), (diag c Hc), (off1 d Hd). xor_ac.
  - rewrite (off1 a Ha), (off2 b Hb), (off3 c Hc), (diag d Hd). xor_ac.
Qed.
Local Transparent m2 m3 m9 m11 m13 m14.
Lemma mix_unmix s : state s -> mix_columns (inv_mix_columns s) = s.
Proof.
  intros H. destruct (state_ex s H) as (b0&b1&b2&b3&b4&b5&b6&b7&b8&b9&b10&b11&b12&b13&b14&b15&->).
  destruct H as [_ H].
  repeat match goal with H : Forall _ (_ :: _) |- _ => inversion H; clear H; subst end.
  pose proof (mix_unmix_col b0 b1 b2 b3) as A. pose proof (mix_unmix_col b4 b5 b6 b7) as B.
  pose proof (mix_unmix_col b8 b9 b10 b11) as C. pose proof (mix_unmix_col b12 b13 b14 b15) as D.
  unfold inv_mix_columns. destruct (inv_mix_col b0 b1 b2 b3) as [|x0 [|x1 [|x2 [|x3 [|]]]]]; try (exfalso; now auto).
  destruct (inv_mix_col b4 b5 b6 b7) as [|y0 [|y1 [|y2 [|y3 [|]]]]]; try (exfalso; now auto).
  destruct (inv_mix_col b8 b9 b10 b11) as [|z0 [|z1 [|z2 [|z3 [|]]]]]; try (exfalso; now auto).
  destruct (inv_mix_col b12 b13 b14 b15) as [|w0 [|w1 [|w2 [|w3 [|]]]]]; try (exfalso; now auto).
  cbn [app mix_columns]. now rewrite A, B, C, D by assumption.
Qed.
Lemma sub_unsub s : state s -> map sbox (map inv_sbox s) = s.
Proof. intros [_ F]. rewrite map_map. rewrite <- (map_id s) at 2. apply map_ext_in. intros b B. rewrite Forall_forall in F. apply inv_sbox_sbox. auto. Qed.
Lemma enc_dec_round s k : state s -> state k -> enc_round (dec_round k s) k = s.
Proof.
  intros S K. unfold enc_round, dec_round. assert (X : state (xor_list s k)) by now apply xor_state.
  rewrite sub_unsub by now apply inv_shift_state, inv_mix_state. rewrite shift_unshift by now apply inv_mix_state. rewrite mix_unmix by exact X. apply xor_list_invol.
  destruct S, K. congruence.
Qed.
Lemma enc_dec_rounds ks s : Forall state ks -> state s -> fold_left enc_round ks (fold_right dec_round s ks) = s.
Proof.
  intros H S. induction H as [|k ks Hk Hks IH]; [reflexivity|]. cbn [fold_left fold_right]. rewrite enc_dec_round; auto. now apply dec_rounds_state.
Qed.
Lemma aes_encrypt_decrypt k s : state k -> state s -> aes_encrypt_block k (aes_decrypt_block k s) = s.
Proof.
  intros K S. pose proof (mid_keys_state k K) as M. pose proof (last_key_state k K) as L. unfold aes_decrypt_block, aes_encrypt_block.
  assert (X : state (xor_list s (last_key k))) by now apply xor_state.
  assert (Y : state (map inv_sbox (inv_shift_rows (xor_list s (last_key k))))) by now apply inv_sub_state, inv_shift_state.
  assert (Z := dec_rounds_state _ _ M Y).
  rewrite xor_list_invol by (destruct Z, K; congruence). rewrite enc_dec_rounds by assumption. rewrite sub_unsub by now apply inv_shift_state. rewrite shift_unshift by exact X.
  apply xor_list_invol. destruct S, L. congruence.
Qed.
(** ** Blocks in a chain *)
Lemma chained_encrypt iv bs cs : state iv -> Forall state bs -> (chained SECRET iv bs cs <-> cs = cbc_encrypt (aes_encrypt_block KEY) iv bs).
Proof.
  intros V B. revert iv cs V. induction B as [|b bs Hb B IH]; intros iv cs V.
  - split; [now inversion 1|intros ->; constructor].
  - assert (X : state (xor_list b iv)) by now apply xor_state. assert (C : state (aes_encrypt_block KEY (xor_list b iv))) by (apply aes_encrypt_state; [apply KEY_state|exact X]). split.
    + inversion 1 as [|? ? x c ? cs' A E R]; subst. apply added_iff in A as ->; [|apply Hb|apply V]. apply (aes_iff KEY _ _ KEY_state X) in E as ->. cbn [cbc_encrypt]. f_equal. now apply IH.
    + intros ->. cbn [cbc_encrypt]. apply (chained_cons _ _ _ (xor_list b iv)); [apply added_iff; [apply Hb|apply V|reflexivity]|now apply (aes_iff KEY _ _ KEY_state X)|now apply IH].
Qed.
Lemma chained_decrypt iv bs cs : state iv -> Forall state bs -> Forall state cs -> (chained SECRET iv bs cs <-> bs = cbc_decrypt (aes_decrypt_block KEY) iv cs).
Proof.
  intros V B C. rewrite (chained_encrypt iv bs cs V B). split.
  - intros ->. symmetry. now apply cbc_decrypt_encrypt.
  - intros ->. clear B. revert iv V. induction C as [|c cs Hc C IH]; intros iv V; [reflexivity|]. cbn [cbc_decrypt cbc_encrypt].
    assert (D : state (aes_decrypt_block KEY c)) by (apply aes_decrypt_state; [apply KEY_state|exact Hc]). rewrite xor_list_invol by (destruct D, V; congruence).
    rewrite aes_encrypt_decrypt by (exact Hc || apply KEY_state). f_equal. now apply IH.
Qed.

(** ** Whole texts *)
Lemma Forall_concat_in {A} (P : A -> Prop) (bs : list (list A)) : Forall P (concat bs) -> Forall (Forall P) bs.
Proof. induction bs as [|b bs IH]; intros F; [constructor|]. cbn in F. apply Forall_app in F as [F G]. constructor; auto. Qed.
Lemma blocks_of n data bs : padded_as n data bs -> blocks16 (data ++ repeat (N.of_nat n) n) = bs.
Proof. intros [F E]. rewrite <- E. apply blocks16_of_concat. eapply Forall_impl; [|exact F]. now intros b [B _]. Qed.
Lemma padded_state n data bs : padded_as n data bs -> Forall state bs.
Proof. intros [F E]. eapply Forall_impl; [|exact F]. intros b [L B]. split; [exact L|exact B]. Qed.
Lemma padded_pad n data bs : (1 <= n <= 16)%nat -> padded_as n data bs -> data ++ repeat (N.of_nat n) n = pkcs7_pad data.
Proof.
  intros H [F E]. assert (L : (length (concat bs) = 16 * length bs)%nat) by (apply concat_length16; eapply Forall_impl; [|exact F]; now intros b [B _]).
  rewrite E, app_length, repeat_length in L. unfold pkcs7_pad. cbv zeta. now replace (16 - length data mod 16)%nat with n by lia.
Qed.
Lemma pad_padded data : bytes data -> padded_as (16 - length data mod 16) data (blocks16 (pkcs7_pad data)).
Proof.
  intros B. apply bytes_bytes_ok in B. destruct (blocks16_concat (pkcs7_pad data) (pad_mod data)) as [E _]. split; [|exact E].
  eapply Forall_impl; [|apply blocks_state; [now apply pad_bytes|apply pad_mod]]. intros b [L S]. split; [exact L|exact S].
Qed.
Lemma sw_encrypts_iff data t : bytes data -> (sw_encrypts data t <-> t = encrypt_sw data).
Proof.
  intros B. split.
  - intros (n & bs & cs & H & P & C & ->). apply (chained_encrypt SECRET bs cs KEY_state (padded_state _ _ _ P)) in C as ->.
    unfold encrypt_sw. rewrite <- (padded_pad n data bs H P), (blocks_of n data bs P). reflexivity.
  - intros ->. pose proof (pad_padded data B) as P. exists (16 - length data mod 16)%nat, (blocks16 (pkcs7_pad data)), (cbc_encrypt (aes_encrypt_block KEY) KEY (blocks16 (pkcs7_pad data))).
    split; [lia|]. split; [exact P|]. split; [|reflexivity]. now apply chained_encrypt; [apply KEY_state|apply (padded_state _ _ _ P)|].
Qed.
Lemma sw_decrypts_iff data p : bytes data -> (decrypt_sw_encrypted data = Ok p <-> sw_decrypts data p).
Proof.
  intros B. unfold decrypt_sw_encrypted. split.
  - destruct (Nat.eqb_spec (length data mod 16) 0) as [M|]; [|discriminate]. cbn [negb]. destruct (pkcs7_unpad _) as [q|] eqn:U; [|discriminate]. intros E. assert (q = p) as -> by congruence. clear E.
    assert (S : Forall state (blocks16 data)) by (apply blocks_state; [now apply bytes_bytes_ok|exact M]). pose proof (cbc_decrypt_state KEY _ KEY_state S) as S'.
    destruct (unpad_spec _ _ U) as (n & N1 & L & E). destruct (blocks16_concat data M) as [D F].
    exists n, (cbc_decrypt (aes_decrypt_block KEY) KEY (blocks16 data)), (blocks16 data). split.
    { split; [exact N1|]. assert (A : Forall (fun b => b < 256) (concat (cbc_decrypt (aes_decrypt_block KEY) KEY (blocks16 data)))).
      { clear -S'. induction S' as [|x l [_ X] Hl IH]; [constructor|]. cbn. now apply Forall_app. }
      rewrite E in A. apply Forall_app in A as [_ A]. destruct n; [lia|]. inversion A; subst. lia. }
    split; [exact F|]. split; [now symmetry|]. split; [now apply chained_decrypt; [apply KEY_state| | |]|]. split; [|exact E].
    eapply Forall_impl; [|exact S']. intros b [X Y]. split; [exact X|exact Y].
  - intros (n & bs & cs & H & F & -> & C & P). assert (S : Forall state cs).
    { rewrite Forall_forall in F |- *. apply Forall_concat_in in B. rewrite Forall_forall in B. intros c I. split; [now apply F|now apply B]. }
    rewrite concat_length16 by exact F. replace (16 * length cs)%nat with (length cs * 16)%nat by lia. rewrite Nat.mod_mul by lia. cbn [Nat.eqb negb].
    apply (chained_decrypt SECRET bs cs KEY_state (padded_state _ _ _ P) S) in C. rewrite blocks16_of_concat by exact F. change SECRET with KEY in C. rewrite <- C.
    destruct P as [_ E]. rewrite E, unpad_app by lia. reflexivity.
Qed.
