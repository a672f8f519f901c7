(** Properties C01-C05. *)
From Verif Require Import Base Spec Aes Crypto CryptoProofs Utf8 M_Raw RawProofs.

(** C01 *)
Theorem C01_decrypt_encrypt data : bytes data ->
  decrypt_sw_encrypted (encrypt_sw data) = Ok data.
Proof. intros H. apply decrypt_encrypt. now apply bytes_bytes_ok. Qed.
Print Assumptions C01_decrypt_encrypt.
Example C01_example : bytes (lit "hello, sketchware project") /\
  decrypt_sw_encrypted (encrypt_sw (lit "hello, sketchware project")) = Ok (lit "hello, sketchware project") /\
  decrypt_sw_encrypted (encrypt_sw []) = Ok [].
Proof. split; [apply bytes_bytes_ok|split]; vm_compute; reflexivity. Qed.

(** C02 *)
Theorem C02_ciphertext_length data : bytes data ->
  length (encrypt_sw data) = ((length data / 16 + 1) * 16)%nat.
Proof.
  intros H. apply bytes_bytes_ok in H. destruct (encrypt_length data); auto; congruence.
Qed.
Print Assumptions C02_ciphertext_length.
Theorem C02_ciphertext_bytes data : bytes data -> bytes (encrypt_sw data).
Proof. intros H. apply bytes_bytes_ok, encrypt_bytes. now apply bytes_bytes_ok. Qed.
Print Assumptions C02_ciphertext_bytes.
Theorem C02_injective d1 d2 : bytes d1 -> bytes d2 -> encrypt_sw d1 = encrypt_sw d2 -> d1 = d2.
Proof.
  intros H1 H2 E. apply C01_decrypt_encrypt in H1, H2. rewrite E in H1. congruence.
Qed.
Print Assumptions C02_injective.
Example C02_example : length (encrypt_sw (repeat 7 16)) = 32%nat /\ length (encrypt_sw [1;2;3]) = 16%nat /\
  encrypt_sw [1;2;3] <> encrypt_sw [1;2;4].
Proof. vm_compute. repeat split. discriminate. Qed.

(** C03 *)
Theorem C03_decrypt_accepts data p : bytes data ->
  decrypt_sw_encrypted data = Ok p <->
  (length data mod 16 = 0)%nat /\
  exists n, (1 <= n <= 255)%nat /\
    cbc_plain (aes_decrypt_block KEY) KEY data = p ++ repeat (N.of_nat n) n.
Proof. intros H. apply decrypt_ok_iff. now apply bytes_bytes_ok. Qed.
Print Assumptions C03_decrypt_accepts.
Theorem C03_decrypt_no_panic data : decrypt_sw_encrypted data <> Panic.
Proof. exact (decrypt_nopanic data). Qed.
Print Assumptions C03_decrypt_no_panic.
Example C03_example :
  decrypt_sw_encrypted [] = Err DecryptionError /\
  decrypt_sw_encrypted (repeat 1 15) = Err DecryptionError /\
  decrypt_sw_encrypted (repeat 1 16) = Err DecryptionError /\
  decrypt_sw_encrypted (encrypt_sw [1;2;3]) = Ok [1;2;3] /\
  cbc_plain (aes_decrypt_block KEY) KEY (encrypt_sw [1;2;3]) = [1;2;3] ++ repeat 13 13.
Proof. vm_compute. repeat split. Qed.

(** C04: success iff all six files decrypt to UTF-8 text; the texts end up in the right fields *)
Theorem C04_from_encrypted project file library resource view logic rf rp :
  from_encrypted project file library resource view logic rf = Ok rp <->
  (forall data text, In (data, text)
     [(project, rp_project rp); (file, rp_file rp); (library, rp_library rp);
      (resource, rp_resource rp); (view, rp_view rp); (logic, rp_logic rp)] ->
     string_ok text /\ decrypt_sw_encrypted data = Ok (utf8_encode text)) /\
  rp_resource_files rp = Some rf.
Proof.
  unfold from_encrypted. rewrite from_encrypted_with_ok. rewrite !decrypt_text_ok. split.
  - intros (A & B & C & D & E & F & G). split; auto. cbn [In].
    intros d t [[= <- <-]|[[= <- <-]|[[= <- <-]|[[= <- <-]|[[= <- <-]|[[= <- <-]|[]]]]]]]; assumption.
  - intros [H G]. do 6 (split; [apply H; cbn; tauto|]). exact G.
Qed.
Print Assumptions C04_from_encrypted.
Theorem C04_from_encrypted_wo_res project file library resource view logic rp :
  from_encrypted_wo_res project file library resource view logic = Ok rp <->
  (forall data text, In (data, text)
     [(project, rp_project rp); (file, rp_file rp); (library, rp_library rp);
      (resource, rp_resource rp); (view, rp_view rp); (logic, rp_logic rp)] ->
     string_ok text /\ decrypt_sw_encrypted data = Ok (utf8_encode text)) /\
  rp_resource_files rp = None.
Proof.
  unfold from_encrypted_wo_res. rewrite from_encrypted_with_ok. rewrite !decrypt_text_ok. split.
  - intros (A & B & C & D & E & F & G). split; auto. cbn [In].
    intros d t [[= <- <-]|[[= <- <-]|[[= <- <-]|[[= <- <-]|[[= <- <-]|[[= <- <-]|[]]]]]]]; assumption.
  - intros [H G]. do 6 (split; [apply H; cbn; tauto|]). exact G.
Qed.
Print Assumptions C04_from_encrypted_wo_res.
Theorem C04_encrypted_project p f l r v g rf :
  Forall string_ok [p; f; l; r; v; g] ->
  from_encrypted (encrypt_sw (utf8_encode p)) (encrypt_sw (utf8_encode f)) (encrypt_sw (utf8_encode l))
    (encrypt_sw (utf8_encode r)) (encrypt_sw (utf8_encode v)) (encrypt_sw (utf8_encode g)) rf =
  Ok {| rp_project := p; rp_file := f; rp_library := l; rp_resource := r; rp_view := v; rp_logic := g;
        rp_resource_files := Some rf |} /\
  from_encrypted_wo_res (encrypt_sw (utf8_encode p)) (encrypt_sw (utf8_encode f)) (encrypt_sw (utf8_encode l))
    (encrypt_sw (utf8_encode r)) (encrypt_sw (utf8_encode v)) (encrypt_sw (utf8_encode g)) =
  Ok {| rp_project := p; rp_file := f; rp_library := l; rp_resource := r; rp_view := v; rp_logic := g;
        rp_resource_files := None |}.
Proof.
  rewrite !Forall_cons_iff. intros (A & B & C & D & E & F & _).
  split; apply from_encrypted_with_ok; cbn [rp_project rp_file rp_library rp_resource rp_view rp_logic rp_resource_files];
    repeat split; auto using decrypt_text_encrypt.
Qed.
Print Assumptions C04_encrypted_project.
Theorem C04_no_panic p f l r v g rf :
  from_encrypted p f l r v g rf <> Panic /\ from_encrypted_wo_res p f l r v g <> Panic.
Proof. split; apply from_encrypted_with_nopanic. Qed.
Print Assumptions C04_no_panic.
Example C04_example :
  (let e s := encrypt_sw (utf8_encode s) in
   from_encrypted (e (lit "p")) (e (lit "f")) (e [0x20AC; 0x1F600]) (e []) (e (lit "v")) (e (lit "g")) [] =
   Ok {| rp_project := lit "p"; rp_file := lit "f"; rp_library := [0x20AC; 0x1F600]; rp_resource := [];
         rp_view := lit "v"; rp_logic := lit "g"; rp_resource_files := Some [] |}) /\
  Forall string_ok [lit "p"; [0x20AC; 0x1F600]] /\
  (let e s := encrypt_sw (utf8_encode s) in
   (* a file that decrypts to invalid UTF-8 *)
   from_encrypted_wo_res (e (lit "p")) (e (lit "f")) (encrypt_sw [0xFF]) (e []) (e (lit "v")) (e (lit "g")) =
   Err FromUtf8Error).
Proof.
  split; [vm_compute; reflexivity|split; [|vm_compute; reflexivity]].
  repeat (apply Forall_cons; [apply string_ok_wf; vm_compute; reflexivity|]). constructor.
Qed.

(** C05: to another file, at every crash point the source is untouched; on completion the output
    decrypts to the source's content. *)
Theorem C05_other_file f file out plain : f file = Some plain -> bytes plain -> out <> file ->
  (forall g, encrypt_sw_file_to_file_crash f file (Some out) g -> g file = Some plain) /\
  (let '(r, g) := encrypt_sw_file_to_file f file (Some out) in
   r = Ok tt /\ g file = Some plain /\ decrypt_sw_file g out = Ok plain /\
   (forall q, q <> out -> g q = f q)).
Proof.
  intros Hf Hb Ho.
  assert (Hn : str_eqb out file = false) by (now apply Str.str_eqb_neq).
  unfold encrypt_sw_file_to_file_crash, encrypt_sw_file_to_file, fs_read. rewrite Hf. cbn [ok_or]. split.
  - intros g Hg. inversion Hg; subst; auto. unfold fs_set. now rewrite Hn.
  - repeat split.
    + unfold write_done, fs_set. now rewrite Hn.
    + unfold decrypt_sw_file, fs_read, write_done, fs_set. rewrite Str.str_eqb_refl. cbn [ok_or bind].
      now apply C01_decrypt_encrypt.
    + intros q Hq. unfold write_done, fs_set. assert (str_eqb out q = false) by (apply Str.str_eqb_neq; congruence).
      now rewrite H.
Qed.
Print Assumptions C05_other_file.
(** a missing source file is an error and changes nothing *)
Theorem C05_missing f file out : f file = None ->
  encrypt_sw_file_to_file f file out = (Err IOError, f) /\
  (forall g, encrypt_sw_file_to_file_crash f file out g -> g = f).
Proof.
  intros H. unfold encrypt_sw_file_to_file, encrypt_sw_file_to_file_crash, fs_read. rewrite H. split; auto.
Qed.
Print Assumptions C05_missing.
(** In place. The full claim would be: every crash state holds the old plaintext or the full
    ciphertext. It is false for every non-empty file: *)
Theorem C05_in_place_refuted f file plain : f file = Some plain -> bytes plain -> plain <> [] ->
  exists g d, encrypt_sw_file_to_file_crash f file None g /\ g file = Some d /\
    d <> plain /\ d <> encrypt_sw plain.
Proof.
  intros Hf Hb Hn. exists (fs_set f file []), [].
  unfold encrypt_sw_file_to_file_crash, fs_read. rewrite Hf. cbn [ok_or]. repeat split.
  - apply (wc_during f file (encrypt_sw plain) 0). lia.
  - unfold fs_set. now rewrite Str.str_eqb_refl.
  - congruence.
  - intros E. apply (f_equal (@length N)) in E. rewrite C02_ciphertext_length in E by auto. cbn in E. lia.
Qed.
Print Assumptions C05_in_place_refuted.
(** What does hold in place (missing: atomicity): a crash leaves the plaintext or a prefix of the
    ciphertext, other files are untouched, and on completion the file decrypts to the plaintext. *)
Theorem C05_in_place_partial f file plain : f file = Some plain -> bytes plain ->
  (forall g, encrypt_sw_file_to_file_crash f file None g ->
     (g file = Some plain \/ exists n, g file = Some (firstn n (encrypt_sw plain))) /\
     (forall q, q <> file -> g q = f q)) /\
  (let '(r, g) := encrypt_sw_file_to_file f file None in
   r = Ok tt /\ g file = Some (encrypt_sw plain) /\ decrypt_sw_file g file = Ok plain).
Proof.
  intros Hf Hb. unfold encrypt_sw_file_to_file_crash, encrypt_sw_file_to_file, fs_read.
  rewrite Hf. cbn [ok_or]. split.
  - intros g Hg. inversion Hg; subst.
    + split; auto.
    + split.
      * right. exists n. unfold fs_set. now rewrite Str.str_eqb_refl.
      * intros q Hq. unfold fs_set. assert (E : str_eqb file q = false) by (apply Str.str_eqb_neq; congruence).
        now rewrite E.
  - repeat split; unfold decrypt_sw_file, fs_read, write_done, fs_set; rewrite Str.str_eqb_refl; auto.
    cbn [ok_or bind]. now apply C01_decrypt_encrypt.
Qed.
Print Assumptions C05_in_place_partial.
Example C05_example :
  let f : fs := fun p => if str_eqb p (lit "a") then Some (lit "data") else None in
  f (lit "a") = Some (lit "data") /\ lit "b" <> lit "a" /\
  decrypt_sw_file (snd (encrypt_sw_file_to_file f (lit "a") (Some (lit "b")))) (lit "b") = Ok (lit "data") /\
  decrypt_sw_file (snd (encrypt_sw_file_to_file f (lit "a") None)) (lit "a") = Ok (lit "data").
Proof. cbn zeta. repeat split; try (vm_compute; reflexivity). vm_compute. discriminate. Qed.
