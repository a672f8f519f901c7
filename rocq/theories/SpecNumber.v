(** Numbers as rational values: IEEE-754 rounding (to nearest, ties to even), and what the number texts of the data files
    mean. Written without the arithmetic of the model; the texts of numbers come as in the JSON grammar ([jnum]: sign,
    integer digits, fraction digits, exponent digits). *)
From Verif Require Import Base Flt Json SpecJson.
From Coq Require Import QArith Qabs.
Local Open Scope Q_scope.

(** ** IEEE-754 *)
(** the magnitude m * 2^e *)
Definition binary (m : N) (e : Z) : Q := inject_Z (Z.of_N m) * 2 ^ e.
(** the finite magnitudes of a format: [prec] significant bits, fewer only at the least exponent *)
Definition member (f : fformat) (m : N) (e : Z) : Prop :=
  (m < 2 ^ Z.to_N (prec f))%N /\ (emin f <= e <= emax f)%Z /\ ((2 ^ Z.to_N (prec f - 1) <= m)%N \/ e = emin f).
Definition float (neg : bool) (m : N) (e : Z) : flt := if (m =? 0)%N then FZero neg else FFin neg m e.
(** half a step above the largest finite magnitude *)
Definition limit (f : fformat) : Q := binary (2 * 2 ^ Z.to_N (prec f) - 1) (emax f - 1).
(** the value of a format that is nearest to [q] (not negative), with the given sign; of two nearest ones the one with an
    even significand; infinity from [limit] on *)
Inductive nearest (f : fformat) (neg : bool) (q : Q) : flt -> Prop :=
| nearest_finite m e : member f m e -> q < limit f ->
    (forall m' e', member f m' e' -> Qabs (q - binary m e) <= Qabs (q - binary m' e')) ->
    (forall m' e', member f m' e' -> (m', e') <> (m, e) -> Qabs (q - binary m e) == Qabs (q - binary m' e') -> N.even m = true) ->
    nearest f neg q (float neg m e)
| nearest_infinite : limit f <= q -> nearest f neg q (FInf neg).
(** the magnitude of a finite value *)
Definition magnitude (x : flt) : Q := match x with FFin _ m e => binary m e | _ => 0 end.
Definition negative (x : flt) : bool := match x with FFin s _ _ | FZero s | FInf s => s | FNan => false end.
(** [as f32] and [as i32] of a finite f64 *)
Definition to_f32 (y x : flt) : Prop := nearest F32 (negative y) (magnitude y) x.
(** the integer part, limited to the i32 range *)
Definition whole_part (neg : bool) (q : Q) (z : Z) : Prop :=
  exists t : Z, inject_Z t <= q < inject_Z (t + 1) /\
    z = (if neg then Z.max (- t) (- 2 ^ 31) else Z.min t (2 ^ 31 - 1))%Z.
Definition to_i32 (y : flt) (z : Z) : Prop := whole_part (negative y) (magnitude y) z.

(** ** Number texts *)
Local Open Scope Z_scope.
(** the value of decimal digits *)
Fixpoint decimal (ds : str) : Z :=
  match ds with
  | [] => 0
  | d :: r => Z.of_N (d - 48) * 10 ^ Z.of_nat (length r) + decimal r
  end.
(** the exact value of a number text is [digits] * 10^[power], up to its sign *)
Definition fraction (n : jnum) : str := match jfrac n with Some ds => ds | None => [] end.
Definition exponent_value (ex : option (bool * str)) : Z :=
  match ex with Some (true, ds) => - decimal ds | Some (false, ds) => decimal ds | None => 0 end.
Definition exponent (n : jnum) : Z := exponent_value (jexp n).
Definition digits_value (n : jnum) : Z := decimal (jint n ++ fraction n).
Definition power (n : jnum) : Z := exponent n - Z.of_nat (length (fraction n)).
Definition ten (e : Z) : Q := (inject_Z 10 ^ e)%Q.
Definition exact_value (n : jnum) : Q := (inject_Z (digits_value n) * ten (power n))%Q.
(** a number with few digits: at most 15 (more exactly, less than 2^53 without the point), with a power of ten up to 22 *)
Definition short (n : jnum) : Prop := digits_value n < 2 ^ 53 /\ Z.abs (exponent n) < 2 ^ 31 /\ Z.abs (power n) <= 22.

(** What serde_json makes of a number text that is not an integer of 64 bits. It keeps the leading digits that fit into a
    u64: *)
Definition leading (v0 : Z) (ds : str) (v : Z) (k : nat) : Prop :=
  (k <= length ds)%nat /\ v = v0 * 10 ^ Z.of_nat k + decimal (firstn k ds) /\ v < 2 ^ 64 /\
  match skipn k ds with [] => True | d :: _ => 2 ^ 64 <= v * 10 + Z.of_N (d - 48) end.
(** (of the integer part, then of the fraction), counts the integer digits left out, and has the significand and the power
    of ten: *)
Definition significand (n : jnum) (v e : Z) : Prop :=
  exists v1 k1 k2, leading 0 (jint n) v1 k1 /\ leading v1 (fraction n) v k2 /\
    e = Z.of_nat (length (jint n)) - Z.of_nat k1 - Z.of_nat k2.
(** The significand becomes an f64, which is multiplied by or divided by the f64 nearest to the power of ten; below 1e-308
    it is divided by 1e308 first, as often as needed. Infinity is an error. *)
Definition f64 (q : Q) (x : flt) : Prop := nearest F64 false q x.
Inductive scaled : flt -> Z -> flt -> Prop :=
| scaled_up y e p x : 0 <= e <= 308 -> f64 (ten e) p -> f64 (magnitude y * magnitude p) x -> x <> FInf false -> scaled y e x
| scaled_down y e p x : -308 <= e < 0 -> f64 (ten (- e)) p -> f64 (magnitude y / magnitude p) x -> scaled y e x
| scaled_zero e : 308 < Z.abs e -> scaled (FZero false) e (FZero false)
| scaled_low y e p y' x : e < -308 -> y <> FZero false -> f64 (ten 308) p -> f64 (magnitude y / magnitude p) y' ->
    scaled y' (e + 308) x -> scaled y e x.
Definition signed_as (n : jnum) (x : flt) : flt := if jneg n then flt_neg x else x.
(** an integer of 64 bits (and then not a float) *)
Definition integral (n : jnum) : Prop :=
  jfrac n = None /\ jexp n = None /\
  if jneg n then 0 < decimal (jint n) <= 2 ^ 63 else decimal (jint n) < 2 ^ 64.
(** an exponent that does not fit into an i32 makes zero, or an error *)
Inductive float_text (n : jnum) : flt -> Prop :=
| float_text_whole x : jfrac n = None -> jexp n = None -> ~ integral n -> decimal (jint n) < 2 ^ 64 ->
    f64 (inject_Z (decimal (jint n))) x -> float_text n (signed_as n x)
| float_text_scaled v e y x : (jfrac n <> None \/ jexp n <> None \/ 2 ^ 64 <= decimal (jint n)) ->
    Z.abs (exponent n) < 2 ^ 31 -> significand n v e -> f64 (inject_Z v) y -> scaled y (e + exponent n) x ->
    float_text n (signed_as n x)
| float_text_tiny v e : 2 ^ 31 <= Z.abs (exponent n) -> significand n v e -> (v = 0 \/ exponent n < 0) ->
    float_text n (signed_as n (FZero false)).

(** ** The shortest decimal of a float *)
Definition decimal_value (D : N) (E : Z) : Q := (inject_Z (Z.of_N D) * ten E)%Q.
(** [D] has at most as many digits as [D'] *)
Definition no_longer (D D' : N) : Prop := forall n, (D' < 10 ^ n -> D < 10 ^ n)%N.
(** which of two equally close decimals is taken: the larger one ([up], std), or else the one that is an even multiple of
    the power of ten of both (ryu) *)
Definition preferred (up : bool) (D : N) (E : Z) (D' : N) (E' : Z) : Prop :=
  if up then (decimal_value D' E' <= decimal_value D E)%Q else E <= E' -> N.even D = true.
(** D * 10^E reads back as the float, no decimal with fewer digits does, none that does with as many digits is closer, and
    of two that are equally close it is the preferred one *)
Definition shortest_decimal (up : bool) (f : fformat) (neg : bool) (m : N) (e : Z) (D : N) (E : Z) : Prop :=
  nearest f neg (decimal_value D E) (FFin neg m e) /\
  forall D' E', nearest f neg (decimal_value D' E') (FFin neg m e) ->
    no_longer D D' /\
    (no_longer D' D ->
       (Qabs (decimal_value D E - binary m e) <= Qabs (decimal_value D' E' - binary m e))%Q /\
       ((Qabs (decimal_value D E - binary m e) == Qabs (decimal_value D' E' - binary m e))%Q ->
          (decimal_value D' E' == decimal_value D E)%Q \/ preferred up D E D' E')).

(** D * 10^E without an exponent: no needless zeros in front; a point only before decimals *)
Definition positional (D : N) (E : Z) (t : str) : Prop :=
  exists i f, int_text i /\ Forall (fun c => 48 <= c <= 57)%N f /\ t = i ++ (match f with [] => [] | _ => lit "." ++ f end) /\
    decimal (i ++ f) = Z.of_N D * 10 ^ Z.max E 0 /\ Z.of_nat (length f) = Z.max (- E) 0.
(** D * 10^E in a data file: from 0.000001 below 10^13 without an exponent and with at least one decimal, otherwise with
    an exponent (without needless zeros, no sign unless negative) and one digit before the point *)
Definition json_decimal (neg : bool) (D : N) (E : Z) (n : jnum) : Prop :=
  jneg n = neg /\ int_text (jint n) /\ Forall (fun c => 48 <= c <= 57)%N (fraction n) /\
  (forall s t, jexp n = Some (s, t) -> int_text t /\ (s = true <-> exponent n < 0)) /\
  (exact_value n == decimal_value D E)%Q /\
  ((ten (-6) <= decimal_value D E < ten 13)%Q -> jexp n = None /\ jfrac n <> None /\ Z.of_nat (length (fraction n)) = Z.max (- E) 1) /\
  (~ (ten (-6) <= decimal_value D E < ten 13)%Q ->
     jexp n <> None /\ digits_value n = Z.of_N D /\ jint n <> lit "0" /\ length (jint n) = 1%nat /\ (jfrac n = None <-> (D < 10)%N)).

(** ** Numbers in block arguments ([f64::from_str] of std) *)
(** a word, each letter in lower or upper case *)
Definition spelled (w : string) (s : str) : Prop := Forall2 (fun l c => c = l \/ (c + 32 = l)%N) (lit w) s.
(** digits before and after a point; on one side there may be none *)
Inductive mantissa : str -> str -> str -> Prop :=
| mantissa_whole d : digits d -> mantissa d [] d
| mantissa_point i f : digits (i ++ f) -> mantissa i f (i ++ lit "." ++ f).
Definition signs : list (bool * str) := [(false, []); (false, lit "+"); (true, lit "-")].
(** the nearest f64 to the decimal number *)
Inductive number_text : str -> flt -> Prop :=
| number_nan neg sign w : In (neg, sign) signs -> spelled "nan" w -> number_text (sign ++ w) FNan
| number_infinite neg sign w : In (neg, sign) signs -> spelled "inf" w \/ spelled "infinity" w -> number_text (sign ++ w) (FInf neg)
| number_decimal neg sign i f m ex et x : In (neg, sign) signs -> mantissa i f m -> exp_text ex et ->
    nearest F64 neg (inject_Z (decimal (i ++ f)) * ten (exponent_value ex - Z.of_nat (length f)))%Q x -> number_text (sign ++ m ++ et) x.

(** ** Values that serde can set aside *)
(** arrays and objects inside one another *)
Fixpoint levels (j : json) : nat :=
  match j with
  | JArr l => S (list_max (map levels l))
  | JObj l => S (list_max (map (fun kv => levels (snd kv)) l))
  | _ => 0%nat
  end.
(** a value, the items and members of it, theirs, and so on *)
Inductive within (v : json) : json -> Prop :=
| within_self : within v v
| within_item l x : In x l -> within v x -> within v (JArr l)
| within_member l k x : In (k, x) l -> within v x -> within v (JObj l).
(** at most 126 levels, every number has a value, every string and every name is valid text ([None] is a text with an
    unpaired surrogate) *)
Record storable (v : json) : Prop := {
  st_levels : (levels v <= 126)%nat;
  st_numbers n : within (JNum n) v -> integral n \/ exists x, float_text n x;
  st_texts : ~ within (JStr None) v;
  st_names l x : within (JObj l) v -> ~ In (None, x) l
}.
