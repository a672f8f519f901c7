(** Proofs about [Crypto.v]. *)
From Verif Require Import Base Str Spec Aes AesProofs Crypto.
From Coq Require Import ZifyNat ZifyN.
Ltac Zify.zify_post_hook ::= Z.to_euclidean_division_equations.

Lemma blocks16_fuel_concat fuel l : (length l <= fuel)%nat -> (length l mod 16 = 0)%nat ->
  concat (blocks16_fuel fuel l) = l /\ Forall (fun b => length b = 16%nat) (blocks16_fuel fuel l).
Proof.
  revert l; induction fuel as [|f IH]; intros l Hf Hm; cbn [blocks16_fuel].
  - destruct l; [split; auto|simpl in Hf; lia].
  - destruct (Nat.ltb_spec (length l) 16) as [H|H].
    + assert (length l = 0)%nat by lia. destruct l; [split; auto|discriminate].
    + cbn [concat]. destruct (IH (skipn 16 l)) as [I1 I2].
      * rewrite skipn_length. lia.
      * rewrite skipn_length. lia.
      * rewrite I1, firstn_skipn. split; auto. constructor; auto. rewrite firstn_length. lia.
Qed.
Lemma blocks16_concat l : (length l mod 16 = 0)%nat ->
  concat (blocks16 l) = l /\ Forall (fun b => length b = 16%nat) (blocks16 l).
Proof. intros H. apply blocks16_fuel_concat; auto. Qed.
Lemma concat_length16 (bs : list (list N)) : Forall (fun b => length b = 16%nat) bs ->
  length (concat bs) = (16 * length bs)%nat.
Proof. induction 1; simpl; auto. rewrite app_length, H, IHForall. lia. Qed.
Lemma blocks16_fuel_of_concat fuel (bs : list (list N)) : Forall (fun b => length b = 16%nat) bs ->
  (length bs <= fuel)%nat -> blocks16_fuel fuel (concat bs) = bs.
Proof.
  intros H; revert fuel; induction H as [|b bs Hb Hbs IH]; intros fuel Hf.
  - destruct fuel; auto.
  - destruct fuel; [simpl in Hf; lia|]. cbn [blocks16_fuel concat].
    rewrite app_length, Hb.
    destruct (Nat.ltb_spec (16 + length (concat bs)) 16); [lia|].
    rewrite <- Hb, firstn_app, skipn_app, Nat.sub_diag, firstn_all, skipn_all. simpl.
    rewrite app_nil_r. f_equal. apply IH. simpl in Hf. lia.
Qed.
Lemma blocks16_of_concat bs : Forall (fun b => length b = 16%nat) bs -> blocks16 (concat bs) = bs.
Proof.
  intros H. apply blocks16_fuel_of_concat; auto. rewrite concat_length16 by auto. lia.
Qed.

Lemma KEY_state : state KEY.
Proof. split; [reflexivity|]. repeat constructor. Qed.

Lemma blocks_state l : bytes_ok l = true -> (length l mod 16 = 0)%nat -> Forall state (blocks16 l).
Proof.
  intros H Hm. destruct (blocks16_concat l Hm) as [H1 H2].
  assert (Hb : Forall (fun b => b < 256) (concat (blocks16 l))).
  { rewrite H1. rewrite Forall_forall. unfold bytes_ok in H. rewrite forallb_forall in H.
    intros x Hx. apply N.ltb_lt. now apply H. }
  revert H2 Hb. generalize (blocks16 l) as bs. intros bs H2. induction H2; simpl; intros Hb; constructor.
  - split; auto. apply Forall_app in Hb. tauto.
  - apply IHForall. apply Forall_app in Hb. tauto.
Qed.

Lemma cbc_encrypt_state iv bs : state iv -> Forall state bs ->
  Forall state (cbc_encrypt (aes_encrypt_block KEY) iv bs).
Proof.
  intros Hiv H; revert iv Hiv; induction H; intros iv Hiv; cbn [cbc_encrypt]; constructor.
  - apply aes_encrypt_state; [apply KEY_state|now apply xor_state].
  - apply IHForall. apply aes_encrypt_state; [apply KEY_state|now apply xor_state].
Qed.
Lemma cbc_decrypt_encrypt iv bs : state iv -> Forall state bs ->
  cbc_decrypt (aes_decrypt_block KEY) iv (cbc_encrypt (aes_encrypt_block KEY) iv bs) = bs.
Proof.
  intros Hiv H; revert iv Hiv; induction H; intros iv Hiv; cbn [cbc_encrypt cbc_decrypt]; auto.
  rewrite aes_decrypt_encrypt by (apply KEY_state || now apply xor_state).
  rewrite xor_list_invol by (destruct H, Hiv; congruence). f_equal.
  apply IHForall. apply aes_encrypt_state; [apply KEY_state|now apply xor_state].
Qed.
Lemma cbc_encrypt_length E iv bs : length (cbc_encrypt E iv bs) = length bs.
Proof. revert iv; induction bs; intros; simpl; auto. Qed.

Lemma pad_length d : length (pkcs7_pad d) = ((length d / 16 + 1) * 16)%nat.
Proof. unfold pkcs7_pad. rewrite app_length, repeat_length. lia. Qed.
Lemma pad_mod d : (length (pkcs7_pad d) mod 16 = 0)%nat.
Proof. rewrite pad_length. apply Nat.mod_mul. lia. Qed.
Lemma pad_bytes d : bytes_ok d = true -> bytes_ok (pkcs7_pad d) = true.
Proof.
  intros H. unfold pkcs7_pad, bytes_ok. rewrite forallb_app. fold (bytes_ok d). rewrite H. cbn [andb].
  apply forallb_forall. intros x Hx. apply repeat_spec in Hx. subst. apply N.ltb_lt. lia.
Qed.
Lemma last_repeat {A} (x d : A) n : n <> 0%nat -> last (repeat x n) d = x.
Proof.
  induction n as [|[|n] IH]; intros H; [lia|reflexivity|]. apply IH. lia.
Qed.
Lemma unpad_app p n : (1 <= n)%nat -> (n < 256)%nat ->
  pkcs7_unpad (p ++ repeat (N.of_nat n) n) = Some p.
Proof.
  intros H1 H2. unfold pkcs7_unpad.
  assert (Hl : last (p ++ repeat (N.of_nat n) n) 0 = N.of_nat n).
  { rewrite last_app_ne by (destruct n; [lia|discriminate]). apply last_repeat. lia. }
  rewrite Hl, Nat2N.id, app_length, repeat_length.
  destruct (p ++ repeat (N.of_nat n) n) eqn:E.
  { apply app_eq_nil in E as [_ E]. destruct n; [lia|discriminate]. }
  rewrite <- E. clear E.
  destruct (Nat.eqb_spec n 0); [lia|]. destruct (Nat.ltb_spec (length p + n) n); [lia|]. cbn [orb].
  replace (length p + n - n)%nat with (length p) by lia.
  rewrite skipn_app, skipn_all, Nat.sub_diag. cbn [skipn app].
  replace (forallb (fun b => b =? N.of_nat n) (repeat (N.of_nat n) n)) with true.
  - rewrite firstn_app, firstn_all, Nat.sub_diag. simpl. now rewrite app_nil_r.
  - symmetry. apply forallb_forall. intros x Hx. apply repeat_spec in Hx. subst. apply N.eqb_refl.
Qed.
Lemma unpad_spec d p : pkcs7_unpad d = Some p ->
  exists n, (1 <= n)%nat /\ last d 0 = N.of_nat n /\ d = p ++ repeat (N.of_nat n) n.
Proof.
  unfold pkcs7_unpad. destruct d as [|x d']; [discriminate|]. remember (x :: d') as d.
  destruct (Nat.eqb_spec (N.to_nat (last d 0)) 0) as [|Hn]; [discriminate|].
  destruct (Nat.ltb_spec (length d) (N.to_nat (last d 0))) as [|Hl]; [discriminate|].
  cbn [orb]. destruct (forallb _ _) eqn:F; [|discriminate]. intros [= <-].
  exists (N.to_nat (last d 0)). repeat split; [lia|lia|].
  rewrite <- (firstn_skipn (length d - N.to_nat (last d 0)) d) at 1. f_equal.
  rewrite N2Nat.id.
  assert (G : length (skipn (length d - N.to_nat (last d 0)) d) = N.to_nat (last d 0)).
  { rewrite skipn_length. lia. }
  rewrite <- G at 2. revert F. generalize (skipn (length d - N.to_nat (last d 0)) d) as t.
  induction t; intros Hf; auto. simpl in Hf. apply andb_prop in Hf as [H1 H2].
  apply N.eqb_eq in H1. simpl. rewrite <- H1 at 1. f_equal. auto.
Qed.
Lemma unpad_pad d : pkcs7_unpad (pkcs7_pad d) = Some d.
Proof. unfold pkcs7_pad. apply unpad_app; lia. Qed.

Theorem decrypt_encrypt data : bytes_ok data = true ->
  decrypt_sw_encrypted (encrypt_sw data) = Ok data.
Proof.
  intros H. unfold decrypt_sw_encrypted, encrypt_sw.
  assert (HS : Forall state (blocks16 (pkcs7_pad data))) by (apply blocks_state; [now apply pad_bytes|apply pad_mod]).
  assert (HC : Forall state (cbc_encrypt (aes_encrypt_block KEY) KEY (blocks16 (pkcs7_pad data))))
    by (apply cbc_encrypt_state; auto; apply KEY_state).
  assert (HL : Forall (fun b => length b = 16%nat) (cbc_encrypt (aes_encrypt_block KEY) KEY (blocks16 (pkcs7_pad data))))
    by (eapply Forall_impl; [|exact HC]; intros a Ha; apply Ha).
  rewrite concat_length16 by auto.
  replace ((16 * _) mod 16 =? 0)%nat with true
    by (symmetry; apply Nat.eqb_eq; rewrite Nat.mul_comm; apply Nat.mod_mul; lia).
  cbn [negb]. rewrite blocks16_of_concat by auto.
  rewrite cbc_decrypt_encrypt by (auto; apply KEY_state).
  destruct (blocks16_concat (pkcs7_pad data) (pad_mod data)) as [-> _].
  now rewrite unpad_pad.
Qed.
Theorem encrypt_length data : length (encrypt_sw data) = ((length data / 16 + 1) * 16)%nat \/ bytes_ok data = false.
Proof.
  destruct (bytes_ok data) eqn:H; auto. left. unfold encrypt_sw.
  assert (HS : Forall state (blocks16 (pkcs7_pad data))) by (apply blocks_state; [now apply pad_bytes|apply pad_mod]).
  rewrite concat_length16.
  - rewrite cbc_encrypt_length.
    destruct (blocks16_concat (pkcs7_pad data) (pad_mod data)) as [E F].
    pose proof (concat_length16 _ F) as G. rewrite E, pad_length in G. lia.
  - eapply Forall_impl; [|apply cbc_encrypt_state; [apply KEY_state|exact HS]]. intros a Ha; apply Ha.
Qed.
Lemma encrypt_bytes data : bytes_ok data = true -> bytes_ok (encrypt_sw data) = true.
Proof.
  intros H. unfold encrypt_sw.
  assert (HS : Forall state (blocks16 (pkcs7_pad data))) by (apply blocks_state; [now apply pad_bytes|apply pad_mod]).
  pose proof (cbc_encrypt_state KEY _ KEY_state HS) as HC.
  apply forallb_forall. intros x Hx. apply in_concat in Hx as [b [Hb Hx]].
  rewrite Forall_forall in HC. apply HC in Hb as [_ Hb]. rewrite Forall_forall in Hb.
  apply N.ltb_lt. auto.
Qed.

Lemma nth_xor_list a b i : (i < length a)%nat -> length a = length b ->
  nth i (xor_list a b) 0 = N.lxor (nth i a 0) (nth i b 0).
Proof.
  revert b i; induction a; destruct b; simpl; intros i Hi Hl; try lia.
  destruct i; auto. apply IHa; lia.
Qed.
Lemma nth_map_seq {A} (f : nat -> A) d n i : (i < n)%nat -> nth i (map f (seq 0 n)) d = f i.
Proof.
  intros H. rewrite nth_indep with (d' := f 0%nat) by (now rewrite map_length, seq_length).
  now rewrite map_nth, seq_nth.
Qed.
Lemma seq_plus m n k : map (fun j => (j + m)%nat) (seq k n) = seq (k + m) n.
Proof. revert k; induction n; intros k; cbn [seq map]; auto. f_equal. rewrite IHn. f_equal. Qed.
Lemma cbc_decrypt_bytes D iv cs : (forall s, length s = 16%nat -> length (D s) = 16%nat) ->
  length iv = 16%nat -> Forall (fun b => length b = 16%nat) cs ->
  concat (cbc_decrypt D iv cs) = map (cbc_plain_byte D iv (concat cs)) (seq 0 (length (concat cs))).
Proof.
  intros HD Hiv H; revert iv Hiv; induction H as [|c cs Hc Hcs IH]; intros iv Hiv; cbn [cbc_decrypt concat]; auto.
  rewrite IH by auto. rewrite app_length, seq_app, map_app. f_equal.
  - apply nth_ext with (d := 0) (d' := 0).
    { rewrite map_length, seq_length, xor_list_length by (rewrite HD, Hiv; auto). rewrite HD; congruence. }
    intros n Hn. rewrite xor_list_length, HD in Hn by (auto; rewrite HD; auto).
    rewrite nth_map_seq by lia. unfold cbc_plain_byte.
    rewrite nth_xor_list by (rewrite HD; auto; lia).
    destruct (Nat.ltb_spec n 16); [|lia]. rewrite Nat.mod_small, Nat.div_small by lia.
    rewrite Nat.mul_0_r. cbn [skipn].
    replace (firstn 16 (c ++ concat cs)) with c; auto.
    rewrite <- Hc. rewrite firstn_app, Nat.sub_diag, firstn_all. cbn [firstn]. now rewrite app_nil_r.
  - rewrite Hc. cbn [plus].
    replace (seq 16 (length (concat cs))) with (map (fun j => (j + 16)%nat) (seq 0 (length (concat cs)))).
    + rewrite map_map. apply map_ext_in. intros j Hj. apply in_seq in Hj.
      unfold cbc_plain_byte. replace ((j + 16) mod 16)%nat with (j mod 16)%nat by lia.
      replace (16 * ((j + 16) / 16))%nat with (16 + 16 * (j / 16))%nat by lia.
      rewrite (skipn_app (16 + 16 * (j / 16))).
      rewrite (skipn_all2 (n := 16 + 16 * (j / 16)) c) by lia. rewrite Hc.
      replace (16 + 16 * (j / 16) - 16)%nat with (16 * (j / 16))%nat by lia. cbn [app].
      f_equal. destruct (Nat.ltb_spec (j + 16) 16); [lia|].
      replace (j + 16 - 16)%nat with j by lia.
      destruct (Nat.ltb_spec j 16).
      * rewrite app_nth1; auto. lia.
      * rewrite app_nth2 by lia. now rewrite Hc.
    + apply seq_plus.
Qed.

Lemma cbc_decrypt_length D iv cs : (forall s, length s = 16%nat -> length (D s) = 16%nat) ->
  length iv = 16%nat -> Forall (fun b => length b = 16%nat) cs ->
  length (concat (cbc_decrypt D iv cs)) = length (concat cs).
Proof. intros. rewrite cbc_decrypt_bytes by auto. now rewrite map_length, seq_length. Qed.

Lemma inv_mix_length s : length s = 16%nat -> length (inv_mix_columns s) = 16%nat.
Proof. intros H. d16 s H. reflexivity. Qed.
Lemma inv_shift_length s : length s = 16%nat -> length (inv_shift_rows s) = 16%nat.
Proof. intros H. d16 s H. reflexivity. Qed.
Lemma dec_round_length k s : length k = 16%nat -> length s = 16%nat -> length (dec_round k s) = 16%nat.
Proof.
  intros Hk Hs. unfold dec_round. rewrite map_length. apply inv_shift_length, inv_mix_length.
  rewrite xor_list_length; congruence.
Qed.
Lemma dec_rounds_length ks s : Forall state ks -> length s = 16%nat ->
  length (fold_right dec_round s ks) = 16%nat.
Proof.
  intros H Hs. induction H; auto. cbn [fold_right]. apply dec_round_length; auto. apply H.
Qed.
Lemma aes_decrypt_length s : length s = 16%nat -> length (aes_decrypt_block KEY s) = 16%nat.
Proof.
  intros Hs. pose proof (last_key_state KEY KEY_state) as [Hl _].
  unfold aes_decrypt_block.
  assert (G : length (fold_right dec_round (map inv_sbox (inv_shift_rows (xor_list s (last_key KEY))))
    (mid_keys KEY)) = 16%nat).
  { apply dec_rounds_length; [apply mid_keys_state, KEY_state|].
    rewrite map_length. apply inv_shift_length. rewrite xor_list_length; congruence. }
  rewrite xor_list_length; [exact G|rewrite G; reflexivity].
Qed.
Lemma cbc_decrypt_state iv cs : state iv -> Forall state cs ->
  Forall state (cbc_decrypt (aes_decrypt_block KEY) iv cs).
Proof.
  intros Hiv H; revert iv Hiv; induction H; intros iv Hiv; cbn [cbc_decrypt]; constructor.
  - apply xor_state; auto. apply aes_decrypt_state; [apply KEY_state|auto].
  - now apply IHForall.
Qed.
Lemma plain_eq data : (length data mod 16 = 0)%nat ->
  concat (cbc_decrypt (aes_decrypt_block KEY) KEY (blocks16 data)) =
  map (cbc_plain_byte (aes_decrypt_block KEY) KEY data) (seq 0 (length data)).
Proof.
  intros H. destruct (blocks16_concat data H) as [E F].
  rewrite cbc_decrypt_bytes by (auto; apply aes_decrypt_length). now rewrite E.
Qed.
Lemma plain_lt data : bytes_ok data = true -> (length data mod 16 = 0)%nat ->
  Forall (fun b => b < 256) (concat (cbc_decrypt (aes_decrypt_block KEY) KEY (blocks16 data))).
Proof.
  intros H Hm. pose proof (cbc_decrypt_state KEY _ KEY_state (blocks_state data H Hm)) as G.
  apply Forall_forall. intros x Hx. apply in_concat in Hx as [b [Hb Hx]].
  rewrite Forall_forall in G. apply G in Hb as [_ Hb]. rewrite Forall_forall in Hb. auto.
Qed.
Lemma last_Forall {A} (P : A -> Prop) l d : Forall P l -> P d -> P (last l d).
Proof. intros H Hd. induction H; auto. cbn [last]. destruct l; auto. Qed.
Lemma decrypt_ok_iff data p : bytes_ok data = true ->
  decrypt_sw_encrypted data = Ok p <->
  (length data mod 16 = 0)%nat /\ exists n, (1 <= n <= 255)%nat /\
    map (cbc_plain_byte (aes_decrypt_block KEY) KEY data) (seq 0 (length data)) =
    p ++ repeat (N.of_nat n) n.
Proof.
  intros H. unfold decrypt_sw_encrypted.
  destruct (Nat.eqb_spec (length data mod 16) 0) as [Hm|Hm]; cbn [negb].
  2:{ split; [discriminate|intros [? _]; contradiction]. }
  rewrite <- plain_eq by auto. pose proof (plain_lt data H Hm) as L.
  set (d := concat _) in *. split.
  - destruct (pkcs7_unpad d) eqn:E; [|discriminate]. intros [= <-]. split; auto.
    apply unpad_spec in E as (n & H1 & H2 & H3). exists n. repeat split; auto.
    assert (last d 0 < 256) by (apply last_Forall; auto; lia). lia.
  - intros [_ (n & [H1 H2] & ->)]. rewrite unpad_app by lia. reflexivity.
Qed.
Lemma decrypt_nopanic data : decrypt_sw_encrypted data <> Panic.
Proof.
  unfold decrypt_sw_encrypted. destruct (negb _); [discriminate|].
  destruct (pkcs7_unpad _); discriminate.
Qed.

Lemma bytes_bytes_ok l : bytes l <-> bytes_ok l = true.
Proof.
  unfold bytes, bytes_ok. rewrite forallb_forall, Forall_forall. split; intros H x Hx.
  - apply N.ltb_lt. auto.
  - apply N.ltb_lt. apply (H x Hx).
Qed.
