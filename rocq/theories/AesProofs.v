(** The inverse cipher undoes the cipher, for every key and block. *)
From Verif Require Import Base Str Aes.
From Coq Require Import Btauto.

Definition all_bytes : list N := map N.of_nat (seq 0 256).
Lemma in_all_bytes b : b < 256 -> In b all_bytes.
Proof.
  intros H. unfold all_bytes. apply in_map_iff. exists (N.to_nat b). split; [lia|].
  apply in_seq. lia.
Qed.
(** lift a finite sweep over all bytes / all pairs of bytes *)
Lemma sweep1 (P : N -> bool) : forallb P all_bytes = true -> forall b, b < 256 -> P b = true.
Proof. intros H b Hb. rewrite forallb_forall in H. apply H. now apply in_all_bytes. Qed.
Lemma sweep2 (P : N -> N -> bool) :
  forallb (fun a => forallb (P a) all_bytes) all_bytes = true ->
  forall a b, a < 256 -> b < 256 -> P a b = true.
Proof.
  intros H a b Ha Hb. rewrite forallb_forall in H. specialize (H a (in_all_bytes a Ha)).
  rewrite forallb_forall in H. apply H. now apply in_all_bytes.
Qed.

Lemma sbox_inv b : b < 256 -> inv_sbox (sbox b) = b.
Proof.
  intros H. apply N.eqb_eq. apply (sweep1 (fun b => inv_sbox (sbox b) =? b)); [vm_compute; reflexivity|assumption..].
Qed.
Lemma sbox_lt b : b < 256 -> sbox b < 256.
Proof.
  intros H. apply N.ltb_lt. apply (sweep1 (fun b => sbox b <? 256)); [vm_compute; reflexivity|assumption..].
Qed.
Lemma inv_sbox_lt b : b < 256 -> inv_sbox b < 256.
Proof.
  intros H. apply N.ltb_lt. apply (sweep1 (fun b => inv_sbox b <? 256)); [vm_compute; reflexivity|assumption..].
Qed.
Lemma lxor_lt a b : a < 256 -> b < 256 -> N.lxor a b < 256.
Proof.
  intros Ha Hb. apply N.ltb_lt. apply (sweep2 (fun a b => N.lxor a b <? 256)); [vm_compute; reflexivity|assumption..].
Qed.
Lemma xtime_lt b : b < 256 -> xtime b < 256.
Proof.
  intros H. apply N.ltb_lt. apply (sweep1 (fun b => xtime b <? 256)); [vm_compute; reflexivity|assumption..].
Qed.
Lemma xtime_lxor a b : a < 256 -> b < 256 -> xtime (N.lxor a b) = N.lxor (xtime a) (xtime b).
Proof.
  intros Ha Hb. apply N.eqb_eq.
  apply (sweep2 (fun a b => xtime (N.lxor a b) =? N.lxor (xtime a) (xtime b))); [vm_compute; reflexivity|assumption..].
Qed.

Ltac xor_ac := apply N.bits_inj; intro; rewrite ?N.lxor_spec; btauto.
Ltac lt256 := repeat first [apply lxor_lt | apply xtime_lt | assumption].

Lemma m2_lt b : b < 256 -> m2 b < 256. Proof. intros. unfold m2. lt256. Qed.
Lemma m3_lt b : b < 256 -> m3 b < 256. Proof. intros. unfold m3. lt256. Qed.
Lemma m9_lt b : b < 256 -> m9 b < 256. Proof. intros. unfold m9. lt256. Qed.
Lemma m11_lt b : b < 256 -> m11 b < 256. Proof. intros. unfold m11. lt256. Qed.
Lemma m13_lt b : b < 256 -> m13 b < 256. Proof. intros. unfold m13. lt256. Qed.
Lemma m14_lt b : b < 256 -> m14 b < 256. Proof. intros. unfold m14. lt256. Qed.
Ltac lin := intros; unfold m2, m3, m9, m11, m13, m14; rewrite ?xtime_lxor by lt256; xor_ac.
Lemma m9_lxor a b : a < 256 -> b < 256 -> m9 (N.lxor a b) = N.lxor (m9 a) (m9 b). Proof. lin. Qed.
Lemma m11_lxor a b : a < 256 -> b < 256 -> m11 (N.lxor a b) = N.lxor (m11 a) (m11 b). Proof. lin. Qed.
Lemma m13_lxor a b : a < 256 -> b < 256 -> m13 (N.lxor a b) = N.lxor (m13 a) (m13 b). Proof. lin. Qed.
Lemma m14_lxor a b : a < 256 -> b < 256 -> m14 (N.lxor a b) = N.lxor (m14 a) (m14 b). Proof. lin. Qed.

(** the two coefficient identities: diagonal and off-diagonal entries of the product matrix *)
Lemma diag a : a < 256 -> m14 (m2 a) = N.lxor a (N.lxor (N.lxor (m11 a) (m13 a)) (m9 (m3 a))).
Proof.
  intros H. apply N.eqb_eq.
  apply (sweep1 (fun a => m14 (m2 a) =? N.lxor a (N.lxor (N.lxor (m11 a) (m13 a)) (m9 (m3 a))))); [vm_compute; reflexivity|assumption..].
Qed.
Lemma off1 a : a < 256 -> m14 (m3 a) = N.lxor (N.lxor (m11 (m2 a)) (m13 a)) (m9 a).
Proof.
  intros H. apply N.eqb_eq.
  apply (sweep1 (fun a => m14 (m3 a) =? N.lxor (N.lxor (m11 (m2 a)) (m13 a)) (m9 a))); [vm_compute; reflexivity|assumption..].
Qed.
Lemma off2 a : a < 256 -> m14 a = N.lxor (N.lxor (m11 (m3 a)) (m13 (m2 a))) (m9 a).
Proof.
  intros H. apply N.eqb_eq.
  apply (sweep1 (fun a => m14 a =? N.lxor (N.lxor (m11 (m3 a)) (m13 (m2 a))) (m9 a))); [vm_compute; reflexivity|assumption..].
Qed.
Lemma off3 a : a < 256 -> m14 a = N.lxor (N.lxor (m11 a) (m13 (m3 a))) (m9 (m2 a)).
Proof.
  intros H. apply N.eqb_eq.
  apply (sweep1 (fun a => m14 a =? N.lxor (N.lxor (m11 a) (m13 (m3 a))) (m9 (m2 a)))); [vm_compute; reflexivity|assumption..].
Qed.

Ltac lt256' := repeat first [apply lxor_lt | apply m2_lt | apply m3_lt | assumption].

Lemma mix_col_inv a b c d : a < 256 -> b < 256 -> c < 256 -> d < 256 ->
  match mix_col a b c d with
  | [x; y; z; w] => inv_mix_col x y z w = [a; b; c; d]
  | _ => False
  end.
Proof.
  intros Ha Hb Hc Hd. unfold mix_col, inv_mix_col.
  rewrite ?m14_lxor, ?m11_lxor, ?m13_lxor, ?m9_lxor by lt256'.
  f_equal; [|f_equal; [|f_equal; [|f_equal]]].
  - rewrite (diag a Ha), (off1 b Hb), (off2 c Hc), (off3 d Hd). xor_ac.
  - rewrite (off3 a Ha), (diag b Hb), (off1 c Hc), (off2 d Hd). xor_ac.
  - rewrite (off2 a Ha), (off3 b Hb), (diag c Hc), (off1 d Hd). xor_ac.
  - rewrite (off1 a Ha), (off2 b Hb), (off3 c Hc), (diag d Hd). xor_ac.
Qed.

Definition state (s : list N) : Prop := length s = 16%nat /\ Forall (fun b => b < 256) s.

Lemma xor_list_length a b : length a = length b -> length (xor_list a b) = length a.
Proof. revert b; induction a; destruct b; simpl; intros H; try lia. rewrite IHa; lia. Qed.
Lemma xor_list_lt a b : Forall (fun b => b < 256) a -> Forall (fun b => b < 256) b ->
  Forall (fun b => b < 256) (xor_list a b).
Proof.
  intros Ha; revert b; induction Ha; destruct b; simpl; intros Hb; constructor; inversion Hb; subst; auto.
  now apply lxor_lt.
Qed.
Lemma xor_list_invol a b : length a = length b -> xor_list (xor_list a b) b = a.
Proof.
  revert b; induction a; destruct b; simpl; intros H; try lia; auto. f_equal; [|apply IHa; lia].
  rewrite N.lxor_assoc, N.lxor_nilpotent. apply N.lxor_0_r.
Qed.
Lemma xor_state a b : state a -> state b -> state (xor_list a b).
Proof. intros [? ?] [? ?]. split; [rewrite xor_list_length; congruence|now apply xor_list_lt]. Qed.

Ltac d16 s H := do 16 (destruct s as [|? s]; [discriminate H|]); destruct s; [|discriminate H].
Lemma state_ex s : state s -> exists b0 b1 b2 b3 b4 b5 b6 b7 b8 b9 b10 b11 b12 b13 b14 b15,
  s = [b0;b1;b2;b3;b4;b5;b6;b7;b8;b9;b10;b11;b12;b13;b14;b15].
Proof. intros [H _]. d16 s H. repeat eexists. Qed.

Lemma sub_state s : state s -> state (map sbox s).
Proof.
  intros [H1 H2]. split; [now rewrite map_length|]. rewrite Forall_map. eapply Forall_impl; [|exact H2].
  apply sbox_lt.
Qed.
Lemma inv_sub_state s : state s -> state (map inv_sbox s).
Proof.
  intros [H1 H2]. split; [now rewrite map_length|]. rewrite Forall_map. eapply Forall_impl; [|exact H2].
  apply inv_sbox_lt.
Qed.
Lemma sub_inv s : state s -> map inv_sbox (map sbox s) = s.
Proof.
  intros [_ H]. rewrite map_map. induction H; simpl; auto. rewrite sbox_inv; auto. now f_equal.
Qed.
Lemma shift_state s : state s -> state (shift_rows s).
Proof.
  intros H. destruct (state_ex s H) as (b0&b1&b2&b3&b4&b5&b6&b7&b8&b9&b10&b11&b12&b13&b14&b15&->).
  destruct H as [_ H]. simpl. split; auto.
  repeat match goal with H : Forall _ (_ :: _) |- _ => inversion H; clear H; subst end.
  repeat constructor; auto.
Qed.
Lemma inv_shift_state s : state s -> state (inv_shift_rows s).
Proof.
  intros H. destruct (state_ex s H) as (b0&b1&b2&b3&b4&b5&b6&b7&b8&b9&b10&b11&b12&b13&b14&b15&->).
  destruct H as [_ H]. simpl. split; auto.
  repeat match goal with H : Forall _ (_ :: _) |- _ => inversion H; clear H; subst end.
  repeat constructor; auto.
Qed.
Lemma shift_inv s : state s -> inv_shift_rows (shift_rows s) = s.
Proof.
  intros H. destruct (state_ex s H) as (b0&b1&b2&b3&b4&b5&b6&b7&b8&b9&b10&b11&b12&b13&b14&b15&->).
  reflexivity.
Qed.
Lemma mix_state s : state s -> state (mix_columns s).
Proof.
  intros H. destruct (state_ex s H) as (b0&b1&b2&b3&b4&b5&b6&b7&b8&b9&b10&b11&b12&b13&b14&b15&->).
  destruct H as [_ H].
  repeat match goal with H : Forall _ (_ :: _) |- _ => inversion H; clear H; subst end.
  unfold mix_columns, mix_col. cbn [app]. split; [reflexivity|].
  repeat constructor; lt256'.
Qed.
Lemma inv_mix_state s : state s -> state (inv_mix_columns s).
Proof.
  intros H. destruct (state_ex s H) as (b0&b1&b2&b3&b4&b5&b6&b7&b8&b9&b10&b11&b12&b13&b14&b15&->).
  destruct H as [_ H].
  repeat match goal with H : Forall _ (_ :: _) |- _ => inversion H; clear H; subst end.
  unfold inv_mix_columns, inv_mix_col. cbn [app]. split; [reflexivity|].
  repeat constructor;
  repeat first [apply lxor_lt | apply xtime_lt | apply m9_lt | apply m11_lt | apply m13_lt | apply m14_lt | assumption].
Qed.
Lemma mix_inv s : state s -> inv_mix_columns (mix_columns s) = s.
Proof.
  intros H. destruct (state_ex s H) as (b0&b1&b2&b3&b4&b5&b6&b7&b8&b9&b10&b11&b12&b13&b14&b15&->).
  destruct H as [_ H].
  repeat match goal with H : Forall _ (_ :: _) |- _ => inversion H; clear H; subst end.
  pose proof (mix_col_inv b0 b1 b2 b3) as A. pose proof (mix_col_inv b4 b5 b6 b7) as B.
  pose proof (mix_col_inv b8 b9 b10 b11) as C. pose proof (mix_col_inv b12 b13 b14 b15) as D.
  unfold mix_columns. destruct (mix_col b0 b1 b2 b3) as [|x0 [|x1 [|x2 [|x3 [|]]]]]; try (exfalso; now auto).
  destruct (mix_col b4 b5 b6 b7) as [|y0 [|y1 [|y2 [|y3 [|]]]]]; try (exfalso; now auto).
  destruct (mix_col b8 b9 b10 b11) as [|z0 [|z1 [|z2 [|z3 [|]]]]]; try (exfalso; now auto).
  destruct (mix_col b12 b13 b14 b15) as [|w0 [|w1 [|w2 [|w3 [|]]]]]; try (exfalso; now auto).
  cbn [app inv_mix_columns]. now rewrite A, B, C, D by assumption.
Qed.

Lemma enc_round_state s k : state s -> state k -> state (enc_round s k).
Proof. intros. unfold enc_round. apply xor_state; auto. apply mix_state, shift_state, sub_state; auto. Qed.
Lemma dec_round_state s k : state s -> state k -> state (dec_round k s).
Proof. intros. unfold dec_round. apply inv_sub_state, inv_shift_state, inv_mix_state, xor_state; auto. Qed.
Lemma dec_enc_round s k : state s -> state k -> dec_round k (enc_round s k) = s.
Proof.
  intros Hs Hk. unfold dec_round, enc_round.
  rewrite xor_list_invol.
  - rewrite mix_inv by (now apply shift_state, sub_state). rewrite shift_inv by now apply sub_state.
    now apply sub_inv.
  - transitivity 16%nat; [apply mix_state, shift_state, sub_state; auto|symmetry; apply Hk].
Qed.
Lemma enc_rounds_state ks s : Forall state ks -> state s -> state (fold_left enc_round ks s).
Proof. intros H; revert s; induction H; simpl; auto. intros s Hs. apply IHForall. now apply enc_round_state. Qed.
Lemma dec_rounds_state ks s : Forall state ks -> state s -> state (fold_right dec_round s ks).
Proof. intros H; induction H; simpl; auto. intros Hs. apply dec_round_state; auto. Qed.
Lemma dec_enc_rounds ks s : Forall state ks -> state s ->
  fold_right dec_round (fold_left enc_round ks s) ks = s.
Proof.
  intros H; revert s; induction H as [|k ks Hk Hks IH]; simpl; auto. intros s Hs.
  rewrite IH by now apply enc_round_state. now apply dec_enc_round.
Qed.

Lemma next_round_key_state k rc : state k -> rc < 256 -> state (next_round_key k rc).
Proof.
  intros H Hr. destruct (state_ex k H) as (b0&b1&b2&b3&b4&b5&b6&b7&b8&b9&b10&b11&b12&b13&b14&b15&->).
  destruct H as [_ H].
  repeat match goal with H : Forall _ (_ :: _) |- _ => inversion H; clear H; subst end.
  unfold next_round_key. cbn [xor_list app]. split; [reflexivity|].
  repeat constructor; repeat first [apply lxor_lt | apply sbox_lt | assumption].
Qed.
Lemma expand_state rs k : state k -> Forall (fun b => b < 256) rs -> Forall state (expand k rs).
Proof.
  intros Hk H; revert k Hk; induction H; simpl; intros k Hk; constructor.
  - now apply next_round_key_state.
  - apply IHForall. now apply next_round_key_state.
Qed.
Lemma mid_keys_state k : state k -> Forall state (mid_keys k).
Proof. intros H. apply expand_state; auto. repeat constructor. Qed.
Lemma last_in {A} (l : list A) d : l <> [] -> In (last l d) l.
Proof. intros H. destruct l as [|x l] using rev_ind; [congruence|]. rewrite last_last. apply in_or_app. simpl. auto. Qed.
Lemma last_key_state k : state k -> state (last_key k).
Proof.
  intros H. unfold last_key.
  assert (F : Forall state (expand k [1;2;4;8;16;32;64;128;27;54])) by (apply expand_state; auto; repeat constructor).
  rewrite Forall_forall in F. apply F. apply last_in. discriminate.
Qed.

Lemma aes_encrypt_state k s : state k -> state s -> state (aes_encrypt_block k s).
Proof.
  intros Hk Hs. unfold aes_encrypt_block. apply xor_state; [|now apply last_key_state].
  apply shift_state, sub_state, enc_rounds_state; [now apply mid_keys_state|now apply xor_state].
Qed.
Lemma aes_decrypt_state k s : state k -> state s -> state (aes_decrypt_block k s).
Proof.
  intros Hk Hs. unfold aes_decrypt_block. apply xor_state; auto.
  apply dec_rounds_state; [now apply mid_keys_state|].
  apply inv_sub_state, inv_shift_state, xor_state; auto. now apply last_key_state.
Qed.
Theorem aes_decrypt_encrypt k s : state k -> state s ->
  aes_decrypt_block k (aes_encrypt_block k s) = s.
Proof.
  intros Hk Hs. unfold aes_decrypt_block, aes_encrypt_block.
  pose proof (mid_keys_state k Hk) as Hm. pose proof (last_key_state k Hk) as Hl.
  set (s1 := fold_left enc_round (mid_keys k) (xor_list s k)).
  assert (H1 : state s1) by (apply enc_rounds_state; auto; now apply xor_state).
  rewrite xor_list_invol.
  2:{ transitivity 16%nat; [apply shift_state, sub_state; auto|symmetry; apply Hl]. }
  rewrite shift_inv by now apply sub_state. rewrite sub_inv by auto.
  unfold s1. rewrite dec_enc_rounds; auto; [|now apply xor_state].
  apply xor_list_invol. destruct Hk, Hs. congruence.
Qed.
