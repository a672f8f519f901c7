(** Property C90: the encryption of project files is AES-128 as in FIPS-197, in CBC mode, with PKCS#7 padding and a fixed key. *)
From Verif Require Import Base Spec Aes AesProofs Crypto CryptoProofs SpecAes AesSpecProofs.

(** C90: the block cipher and its inverse *)
Theorem C90_block key s t : length key = 16%nat -> bytes key -> length s = 16%nat -> bytes s ->
  (aes_128 key s t <-> t = aes_encrypt_block key s).
Proof. intros K K' S S'. apply aes_iff; split; assumption. Qed.
Print Assumptions C90_block.
Theorem C90_inverse key s t : length key = 16%nat -> bytes key -> length t = 16%nat -> bytes t ->
  length s = 16%nat -> bytes s -> (aes_128 key s t <-> s = aes_decrypt_block key t).
Proof.
  intros K K' T T' S S'. assert (KK : state key) by now split. assert (SS : state s) by now split. assert (TT : state t) by now split.
  rewrite (aes_iff key s t KK SS). split; intros ->; symmetry; [now apply aes_decrypt_encrypt|now apply aes_encrypt_decrypt].
Qed.
Print Assumptions C90_inverse.
(** whole texts *)
Theorem C90_encrypt data t : bytes data -> (encrypt_sw data = t <-> sw_encrypts data t).
Proof. intros B. rewrite (sw_encrypts_iff data t B). now split. Qed.
Print Assumptions C90_encrypt.
Theorem C90_decrypt data p : bytes data -> (decrypt_sw_encrypted data = Ok p <-> sw_decrypts data p).
Proof. apply sw_decrypts_iff. Qed.
Print Assumptions C90_decrypt.
(** files *)
Theorem C90_files f file : (forall d, f file = Some d -> bytes d) ->
  (forall t, encrypt_sw_file f file = Ok t <-> exists d, f file = Some d /\ sw_encrypts d t) /\
  (forall p, decrypt_sw_file f file = Ok p <-> exists d, f file = Some d /\ sw_decrypts d p).
Proof.
  intros B. unfold encrypt_sw_file, decrypt_sw_file, fs_read, ok_or. destruct (f file) as [d|] eqn:F; cbn [bind].
  - specialize (B d eq_refl). split; intros t.
    + split; [intros E; exists d; split; [reflexivity|]; apply C90_encrypt; [exact B|congruence]|].
      intros (d' & E & X). assert (d' = d) as -> by congruence. apply C90_encrypt in X; [congruence|exact B].
    + rewrite (C90_decrypt d t B). split; [intros X; now exists d|]. intros (d' & E & X). congruence.
  - split; intros t; (split; [discriminate|intros (d & E & _); discriminate]).
Qed.
Print Assumptions C90_files.

(** the vector of FIPS-197 appendix C.1, and the first block of an encrypted file *)
Example C90_example :
  aes_128 [0;1;2;3;4;5;6;7;8;9;10;11;12;13;14;15]
    [0x00;0x11;0x22;0x33;0x44;0x55;0x66;0x77;0x88;0x99;0xaa;0xbb;0xcc;0xdd;0xee;0xff]
    [0x69;0xc4;0xe0;0xd8;0x6a;0x7b;0x04;0x30;0xd8;0xcd;0xb7;0x80;0x70;0xb4;0xc5;0x5a] /\
  sub_byte 0x53 0xed /\ gf_mul 0x57 0x83 0xc1 /\ ~ sub_byte 0x53 0xee /\
  sw_encrypts (lit "{}") (encrypt_sw (lit "{}")) /\ sw_decrypts (encrypt_sw (lit "{}")) (lit "{}") /\
  ~ sw_encrypts (lit "{}") (encrypt_sw (lit "[]")).
Proof.
  split; [apply C90_block; [reflexivity|apply bytes_bytes_ok; reflexivity|reflexivity|apply bytes_bytes_ok; reflexivity|vm_compute; reflexivity]|].
  split; [apply sub_byte_iff; [reflexivity|vm_compute; reflexivity]|].
  split; [split; [reflexivity|]; exists 0x28; split; [reflexivity|vm_compute; reflexivity]|].
  split; [intros X; apply sub_byte_iff in X; [vm_compute in X; discriminate X|reflexivity]|].
  assert (B : bytes (lit "{}")) by (apply bytes_bytes_ok; reflexivity).
  split; [now apply C90_encrypt|]. split.
  - apply C90_decrypt; [apply bytes_bytes_ok, encrypt_bytes; reflexivity|]. now apply decrypt_encrypt.
  - intros X. apply C90_encrypt in X; [|exact B]. apply (f_equal decrypt_sw_encrypted) in X. rewrite !decrypt_encrypt in X by reflexivity. discriminate X.
Qed.
