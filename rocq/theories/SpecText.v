(** Texts as the standard library has them: UTF-8 (RFC 3629), positions in bytes, white space, trimming, splitting, integer casts. *)
From Verif Require Import Base Spec.

(** first and last character of a form, its leading byte and the number of bytes that follow *)
Definition FORMS : list (N * N * N * nat) :=
  [(0, 0x7F, 0, 0%nat); (0x80, 0x7FF, 0xC0, 1%nat); (0x800, 0xFFFF, 0xE0, 2%nat); (0x10000, 0x10FFFF, 0xF0, 3%nat)].
(** six bits in every byte that follows *)
Definition joined (first : N) (rest : list N) : N := fold_left (fun a b => a * 64 + (b - 0x80)) rest first.
Definition encoded (c : char) (bs : list N) : Prop :=
  (c < 0xD800 \/ 0xDFFF < c) /\
  exists lo hi lead n b rest, In (lo, hi, lead, n) FORMS /\ lo <= c <= hi /\ bs = b :: rest /\ length rest = n /\
    lead <= b /\ Forall (fun x => 0x80 <= x <= 0xBF) rest /\ c = joined (b - lead) rest.
Definition text_bytes (s : str) (bs : list N) : Prop := exists parts, Forall2 encoded s parts /\ bs = concat parts.

(** Unicode White_Space *)
Definition WHITE : list char :=
  [0x9; 0xA; 0xB; 0xC; 0xD; 0x20; 0x85; 0xA0; 0x1680; 0x2000; 0x2001; 0x2002; 0x2003; 0x2004; 0x2005; 0x2006; 0x2007; 0x2008; 0x2009; 0x200A;
   0x2028; 0x2029; 0x202F; 0x205F; 0x3000].
Definition white (c : char) : Prop := In c WHITE.
Definition not_white_ends (s : str) : Prop :=
  (forall c r, s = c :: r -> ~ white c) /\ (forall c r, s = r ++ [c] -> ~ white c).
Definition trimmed (s t : str) : Prop := exists a b, s = a ++ t ++ b /\ Forall white a /\ Forall white b /\ not_white_ends t.

(** [p] does not start anywhere in [a] followed by [p] before the end of [a] *)
Definition first_occurrence (p s a b : str) : Prop :=
  s = a ++ p ++ b /\ forall a' b', s = a' ++ p ++ b' -> (length a <= length a')%nat.
