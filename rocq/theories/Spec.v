(** Small specifications shared by the property files. They do not use the model's helpers. *)
From Verif Require Import Base.

(** a list of numbers is a byte string *)
Definition bytes (l : list N) : Prop := Forall (fun b => b < 256) l.
(** byte [j] of the CBC decryption of [c]: decrypt the 16-byte block containing it and xor with the
    ciphertext byte 16 positions earlier (the iv for the first block) *)
Definition cbc_plain_byte (D : list N -> list N) (iv c : list N) (j : nat) : N :=
  N.lxor (nth (j mod 16) (D (firstn 16 (skipn (16 * (j / 16)) c))) 0)
         (if (j <? 16)%nat then nth j iv 0 else nth (j - 16) c 0).
Definition cbc_plain (D : list N -> list N) (iv c : list N) : list N :=
  map (cbc_plain_byte D iv c) (seq 0 (length c)).
(** a Rust string: a sequence of Unicode scalar values *)
Definition string_ok (s : str) : Prop := Forall (fun c => c < 0xD800 \/ 0xE000 <= c < 0x110000) s.
(** value of a hexadecimal digit of either case *)
Definition hexv (c : char) : option N :=
  if (48 <=? c) && (c <=? 57) then Some (c - 48)
  else if (97 <=? c) && (c <=? 102) then Some (c - 87)
  else if (65 <=? c) && (c <=? 70) then Some (c - 55)
  else None.
(** value of a string of hexadecimal digits, most significant first *)
Fixpoint hexnum (s : str) : option N :=
  match s with
  | [] => Some 0
  | c :: r => match hexv c, hexnum r with
              | Some v, Some w => Some (v * 16 ^ N.of_nat (length r) + w)
              | _, _ => None
              end
  end.
(** the last element of the list with property [P] *)
Definition is_last {A} (P : A -> Prop) (l : list A) (x : A) : Prop :=
  exists a b, l = a ++ x :: b /\ P x /\ forall y, In y b -> ~ P y.
