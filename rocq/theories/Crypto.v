(** Model of /repo/src/lib.rs: AES-128-CBC with PKCS7 padding, key = iv. *)
From Verif Require Import Base Aes.

(** lib.rs L19: [KEY], used as key and as initialisation vector (L30, L61) *)
Definition KEY : list N := lit "sketchwaresecure".

(** split into 16-byte blocks; a shorter rest is dropped (callers guarantee there is none) *)
Fixpoint blocks16_fuel (fuel : nat) (l : list N) : list (list N) :=
  match fuel with
  | O => []
  | S f => if (length l <? 16)%nat then [] else firstn 16 l :: blocks16_fuel f (skipn 16 l)
  end.
Definition blocks16 (l : list N) : list (list N) := blocks16_fuel (length l) l.

(** CBC mode of block-modes 0.8 (external crate) *)
Fixpoint cbc_encrypt (E : list N -> list N) (iv : list N) (bs : list (list N)) : list (list N) :=
  match bs with
  | [] => []
  | b :: r => let c := E (xor_list b iv) in c :: cbc_encrypt E c r
  end.
Fixpoint cbc_decrypt (D : list N -> list N) (iv : list N) (cs : list (list N)) : list (list N) :=
  match cs with
  | [] => []
  | c :: r => xor_list (D c) iv :: cbc_decrypt D c r
  end.

(** Pkcs7::pad of block-padding 0.2 (external crate) for 16-byte blocks *)
Definition pkcs7_pad (d : list N) : list N :=
  let n := (16 - length d mod 16)%nat in d ++ repeat (N.of_nat n) n.
(** Pkcs7::unpad of block-padding 0.2: the last byte n must satisfy 0 < n <= length and the
    last n bytes must all equal n (the crate does not require n <= 16). *)
Definition pkcs7_unpad (d : list N) : option (list N) :=
  match d with
  | [] => None
  | _ => let n := N.to_nat (last d 0) in
         if (n =? 0)%nat || (length d <? n)%nat then None
         else let cut := (length d - n)%nat in
              if forallb (fun b => b =? last d 0) (skipn cut d) then Some (firstn cut d) else None
  end.

(** lib.rs L67-77 (the payloads of the error variants are not modelled) *)
Inductive crypto_error := IOError | DecryptionError | FromUtf8Error.

(** lib.rs L60-65 *)
Definition encrypt_sw (data : list N) : list N :=
  concat (cbc_encrypt (aes_encrypt_block KEY) KEY (blocks16 (pkcs7_pad data))).

(** lib.rs L29-39; [BlockMode::decrypt] of block-modes 0.8 rejects lengths that are
    not a multiple of the block size, then decrypts, then unpads *)
Definition decrypt_sw_encrypted (data : list N) : res crypto_error (list N) :=
  if negb (length data mod 16 =? 0)%nat then Err DecryptionError
  else match pkcs7_unpad (concat (cbc_decrypt (aes_decrypt_block KEY) KEY (blocks16 data))) with
       | Some d => Ok d
       | None => Err DecryptionError
       end.

(** ** Files. A file system maps paths to contents; reading a missing file is an io error
    (other io errors are not modelled). *)
Definition fs := str -> option (list N).
Definition fs_set (f : fs) (p : str) (d : list N) : fs :=
  fun q => if str_eqb p q then Some d else f q.
(** [std::fs::read] *)
Definition fs_read (f : fs) (p : str) : res crypto_error (list N) := ok_or IOError (f p).
(** States a crash during [std::fs::write(p, d)] can leave behind: nothing done yet, or the file
    was created/truncated and received some prefix of the data. *)
Inductive write_crash (f : fs) (p : str) (d : list N) : fs -> Prop :=
| wc_before : write_crash f p d f
| wc_during n : (n <= length d)%nat -> write_crash f p d (fs_set f p (firstn n d)).
(** state after a completed [std::fs::write] *)
Definition write_done (f : fs) (p : str) (d : list N) : fs := fs_set f p d.

(** lib.rs L23-27 *)
Definition decrypt_sw_file (f : fs) (file : str) : res crypto_error (list N) :=
  let* data := fs_read f file in decrypt_sw_encrypted data.
(** lib.rs L53-58 *)
Definition encrypt_sw_file (f : fs) (file : str) : res crypto_error (list N) :=
  let* data := fs_read f file in Ok (encrypt_sw data).
(** lib.rs L41-51: result and final state *)
Definition encrypt_sw_file_to_file (f : fs) (file : str) (out : option str)
  : res crypto_error unit * fs :=
  let output_file := match out with Some o => o | None => file end in
  match fs_read f file with
  | Ok plain => (Ok tt, write_done f output_file (encrypt_sw plain))
  | Err e => (Err e, f)
  | Panic => (Panic, f)
  end.
(** the states in which a crash during the same call can leave the file system *)
Definition encrypt_sw_file_to_file_crash (f : fs) (file : str) (out : option str) (g : fs) : Prop :=
  let output_file := match out with Some o => o | None => file end in
  match fs_read f file with
  | Ok plain => write_crash f output_file (encrypt_sw plain) g
  | _ => g = f
  end.
