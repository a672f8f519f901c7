(** AES-128 as in FIPS-197 and CBC with PKCS#7 padding, as relations between bytes; independent of the tables and the round functions of Aes.v. *)
From Verif Require Import Base Spec.

(** ** Bytes as polynomials over GF(2): bit [i] is the coefficient of x^i (FIPS-197 section 4) *)
Definition poly_mul (a b : N) : N :=
  fold_right N.lxor 0 (map (fun i => if N.testbit b i then N.shiftl a i else 0) [0; 1; 2; 3; 4; 5; 6; 7]).
(** x^8 + x^4 + x^3 + x + 1 *)
Definition MODULUS : N := 0x11b.
Definition congruent (p c : N) : Prop := c < 256 /\ exists q, q < 256 /\ p = N.lxor (poly_mul MODULUS q) c.
Definition gf_mul (a b c : N) : Prop := congruent (poly_mul a b) c.
Definition gf_inverse (a b : N) : Prop := b < 256 /\ (a = 0 /\ b = 0 \/ gf_mul a b 1).
(** 5.1.1: the inverse, then an affine map of its bits *)
Definition sub_byte (a y : N) : Prop :=
  y < 256 /\ exists b, gf_inverse a b /\
    forall i, i < 8 -> N.testbit y i = fold_right xorb (N.testbit 0x63 i) (map (fun k => N.testbit b ((i + k) mod 8)) [0; 4; 5; 6; 7]).

(** ** Blocks: byte [r + 4 c] is in row [r] and column [c] (3.4) *)
Definition at_ (s : list N) (r c : nat) : N := nth (r + 4 * c) s 0.
Definition sub_bytes (s t : list N) : Prop := Forall2 sub_byte s t.
(** 5.1.2 *)
Definition rows_shifted (s t : list N) : Prop :=
  length t = 16%nat /\ forall r c, (r < 4)%nat -> (c < 4)%nat -> at_ t r c = at_ s r ((c + r) mod 4).
(** 5.1.3: the matrix is circulant, its first row is 2 3 1 1 *)
Definition coefficient (r k : nat) : N := nth ((k + 4 - r) mod 4) [2; 3; 1; 1] 0.
Definition columns_mixed (s t : list N) : Prop :=
  length t = 16%nat /\ forall r c, (r < 4)%nat -> (c < 4)%nat ->
    exists p, (forall k, (k < 4)%nat -> gf_mul (coefficient r k) (at_ s k c) (p k)) /\
      at_ t r c = fold_right N.lxor 0 (map p [0; 1; 2; 3]%nat).
(** 5.1.4 *)
Definition added (s k t : list N) : Prop := length t = 16%nat /\ forall j, (j < 16)%nat -> nth j t 0 = N.lxor (nth j s 0) (nth j k 0).
(** ** Key expansion (5.2) *)
Definition round_constant (j : nat) (c : N) : Prop := congruent (N.shiftl 1 (N.of_nat (j - 1))) c.
Definition word_added (a b c : list N) : Prop := length c = 4%nat /\ forall j, (j < 4)%nat -> nth j c 0 = N.lxor (nth j a 0) (nth j b 0).
Definition scheduled (key : list N) (w : nat -> list N) : Prop :=
  (forall i, (i < 4)%nat -> w i = firstn 4 (skipn (4 * i) key)) /\
  (forall i, (4 <= i < 44)%nat -> if (i mod 4 =? 0)%nat
     then exists rotated subbed rc t, rotated = tl (w (i - 1)%nat) ++ firstn 1 (w (i - 1)%nat) /\ sub_bytes rotated subbed /\
            round_constant (i / 4) rc /\ word_added subbed [rc; 0; 0; 0] t /\ word_added (w (i - 4)%nat) t (w i)
     else word_added (w (i - 4)%nat) (w (i - 1)%nat) (w i)).
Definition round_key (w : nat -> list N) (i : nat) : list N := w (4 * i)%nat ++ w (4 * i + 1)%nat ++ w (4 * i + 2)%nat ++ w (4 * i + 3)%nat.
(** ** The cipher (5.1) *)
Definition aes_128 (key s t : list N) : Prop :=
  exists w st, scheduled key w /\ added s (round_key w 0) (st 0%nat) /\
    (forall i, (1 <= i <= 9)%nat -> exists a b c, sub_bytes (st (i - 1)%nat) a /\ rows_shifted a b /\ columns_mixed b c /\ added c (round_key w i) (st i)) /\
    (exists a b, sub_bytes (st 9%nat) a /\ rows_shifted a b /\ added b (round_key w 10) t).
(** ** CBC: every block is added to the block before it, the first one to the initialisation vector, and enciphered *)
Inductive chained (key : list N) : list N -> list (list N) -> list (list N) -> Prop :=
| chained_nil iv : chained key iv [] []
| chained_cons iv b x c bs cs : added b iv x -> aes_128 key x c -> chained key c bs cs -> chained key iv (b :: bs) (c :: cs).
(** lib.rs L19-21, L29-39, L60-65: padded with [n] bytes of value [n]; key and initialisation vector are the same *)
Definition SECRET : list N := lit "sketchwaresecure".
Definition padded_as (n : nat) (data : list N) (bs : list (list N)) : Prop :=
  Forall (fun b => length b = 16%nat /\ bytes b) bs /\ concat bs = data ++ repeat (N.of_nat n) n.
Definition sw_encrypts (data t : list N) : Prop :=
  exists n bs cs, (1 <= n <= 16)%nat /\ padded_as n data bs /\ chained SECRET SECRET bs cs /\ t = concat cs.
(** when decrypting, any number of padding bytes is accepted *)
Definition sw_decrypts (data p : list N) : Prop :=
  exists n bs cs, (1 <= n <= 255)%nat /\ Forall (fun c => length c = 16%nat) cs /\ data = concat cs /\ chained SECRET SECRET bs cs /\ padded_as n p bs.
