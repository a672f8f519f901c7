(** IEEE-754 binary32 / binary64 values and their decimal text.

    [f64::from_str] and [f64::to_string] (std) are used by /repo/src/api/block.rs for number
    arguments, [f32] and [f64] through serde_json by /repo/src/parser/view.rs and
    /repo/src/color.rs. std's parser is correctly rounded (nearest, ties to even); std's and
    ryu's printers emit the shortest decimal that rounds back to the value, the closest one if
    there are several. NaN payloads and signs are not modelled. *)
From Verif Require Import Base Dec.

Inductive flt :=
| FNan
| FInf (neg : bool)
| FZero (neg : bool)
| FFin (neg : bool) (m : N) (e : Z).   (* (-1)^neg * m * 2^e *)

Record fformat := { prec : Z; emin : Z; emax : Z (* largest exponent e *); maxdigits : nat }.
Definition F64 : fformat := {| prec := 53; emin := -1074; emax := 971; maxdigits := 17 |}.
Definition F32 : fformat := {| prec := 24; emin := -149; emax := 104; maxdigits := 9 |}.

(** the values of a format, each in exactly one representation *)
Definition canonical (f : fformat) (x : flt) : bool :=
  match x with
  | FFin _ m e =>
    (1 <=? m) && (emin f <=? e)%Z && (e <=? emax f)%Z && (m <? 2 ^ Z.to_N (prec f)) &&
    ((2 ^ Z.to_N (prec f - 1) <=? m) || (e =? emin f)%Z)
  | _ => true
  end.

Definition flt_eqb (x y : flt) : bool :=
  match x, y with
  | FNan, FNan => true
  | FInf a, FInf b => Bool.eqb a b
  | FZero a, FZero b => Bool.eqb a b
  | FFin a m e, FFin b m' e' => Bool.eqb a b && (m =? m') && (e =? e')%Z
  | _, _ => false
  end.

(** [P * 2^-e / Q] as numerator and denominator *)
Definition scale2 (P Q : N) (e : Z) : N * N :=
  if (0 <=? e)%Z then (P, Q * 2 ^ Z.to_N e) else (P * 2 ^ Z.to_N (- e), Q).
(** floor (log2 (P/Q)) *)
Definition fl2 (P Q : N) : Z :=
  let p := (Z.of_N (N.log2 P) - Z.of_N (N.log2 Q))%Z in
  let '(n, d) := scale2 P Q p in
  if d <=? n then p else (p - 1)%Z.
(** nearest-even rounding of the rational [P/Q] (Q > 0) to format [f] *)
Definition round_ratio (f : fformat) (neg : bool) (P Q : N) : flt :=
  if P =? 0 then FZero neg
  else
    let e := Z.max (fl2 P Q - (prec f - 1)) (emin f) in
    let '(n, d) := scale2 P Q e in
    let q := n / d in
    let r := n mod d in
    let q' := match 2 * r ?= d with
              | Lt => q
              | Gt => q + 1
              | Eq => if N.even q then q else q + 1
              end in
    if q' =? 0 then FZero neg
    else
      let '(q2, e2) := if q' =? 2 ^ Z.to_N (prec f) then (2 ^ Z.to_N (prec f - 1), (e + 1)%Z)
                       else (q', e) in
      if (emax f <? e2)%Z then FInf neg else FFin neg q2 e2.

(** [D * 10^E] rounded *)
Definition round_dec (f : fformat) (neg : bool) (D : N) (E : Z) : flt :=
  if (0 <=? E)%Z then round_ratio f neg (D * 10 ^ Z.to_N E) 1
  else round_ratio f neg D (10 ^ Z.to_N (- E)).

(** ** Shortest digits *)
Definition ratio_of (m : N) (e : Z) : N * N :=
  if (0 <=? e)%Z then (m * 2 ^ Z.to_N e, 1) else (m, 2 ^ Z.to_N (- e)).
(** k with 10^(k-1) <= P/Q < 10^k *)
Definition dexp (P Q : N) : Z :=
  let k1 := (fl2 P Q * 30103 / 100000)%Z in
  let le10 (j : Z) := if (0 <=? j)%Z then Q * 10 ^ Z.to_N j <=? P
                      else Q <=? P * 10 ^ Z.to_N (- j) in
  if le10 (k1 + 1)%Z then (k1 + 2)%Z else (k1 + 1)%Z.
(** exact decimal expansion of m * 2^e *)
Definition exact_dec (m : N) (e : Z) : N * Z :=
  if (0 <=? e)%Z then (m * 2 ^ Z.to_N e, 0%Z) else (m * 5 ^ Z.to_N (- e), e).
(** shortest (D, E) with at most [fuel] more digits than [n] that passes [ok]; of two candidates the closer one; when
    they are equally close the upper one if [up] (std's fallback algorithm), else the even one (ryu) *)
Fixpoint shortest_search (up : bool) (ok : N -> Z -> bool) (P Q : N) (k : Z) (fuel : nat) (n : Z) : option (N * Z) :=
  match fuel with
  | O => None
  | S f =>
    let t := (n - k)%Z in
    let '(a, b) := if (0 <=? t)%Z then (P * 10 ^ Z.to_N t, Q) else (P, Q * 10 ^ Z.to_N (- t)) in
    let lo := a / b in
    let hi := lo + 1 in
    let near_lo := match 2 * (a mod b) ?= b with Lt => true | Gt => false | Eq => negb up && N.even lo end in
    let '(x, y) := if near_lo then (lo, hi) else (hi, lo) in
    if ok x (- t)%Z then Some (x, (- t)%Z)
    else if ok y (- t)%Z then Some (y, (- t)%Z)
    else shortest_search up ok P Q k f (n + 1)
  end.
(** The search succeeds with at most 17 (9) digits for every f64 (f32), see ShortestProofs.v; the exact expansion is
    only there to make the function total. *)
Definition shortest (up : bool) (ok : N -> Z -> bool) (f : fformat) (m : N) (e : Z) : N * Z :=
  let '(P, Q) := ratio_of m e in
  match shortest_search up ok P Q (dexp P Q) (maxdigits f) 1 with
  | Some r => r
  | None => exact_dec m e
  end.

(** ** [f64] text of std

    Simplification: std stops adding digits to an explicit exponent once it has reached 65536, which only matters for
    texts with more than 65536 digits before the exponent. *)
Definition CH_0 : char := 48.
Definition CH_DOT : char := 46.
Definition CH_MINUS : char := 45.
Definition CH_PLUS : char := 43.
(** positional notation of D * 10^E *)
Definition display_dec (D : N) (E : Z) : str :=
  let ds := dec_of_N D in
  if (0 <=? E)%Z then ds ++ repeat CH_0 (Z.to_nat E)
  else let k := Z.to_nat (- E) in
       if (k <? length ds)%nat
       then firstn (length ds - k) ds ++ CH_DOT :: skipn (length ds - k) ds
       else CH_0 :: CH_DOT :: repeat CH_0 (k - length ds) ++ ds.

(** leading decimal digits of a string and the rest *)
Fixpoint span_digits (s : str) : str * str :=
  match s with
  | c :: r => if is_digit c then let '(a, b) := span_digits r in (c :: a, b) else ([], s)
  | [] => ([], [])
  end.
Definition digits_N (s : str) : N := fold_left (fun a c => a * 10 + (c - 48)) s 0.
Definition lower (c : char) : char := if (65 <=? c) && (c <=? 90) then c + 32 else c.

(** the number part of [f64::from_str]: digits [. digits] [e [sign] digits], at least one digit
    in the mantissa *)
Definition parse_float_body (f : fformat) (neg : bool) (s : str) : option flt :=
  let '(ip, r1) := span_digits s in
  let '(fp, r2) := match r1 with 46 :: r => span_digits r | _ => ([], r1) end in
  match ip ++ fp with
  | [] => None
  | ds =>
    let E0 := (- Z.of_nat (length fp))%Z in
    match r2 with
    | [] => Some (round_dec f neg (digits_N ds) E0)
    | c :: r3 =>
      if (c =? 101) || (c =? 69) then
        let '(eneg, r4) := match r3 with
                           | 45 :: r => (true, r)
                           | 43 :: r => (false, r)
                           | _ => (false, r3) end in
        let '(ed, r5) := span_digits r4 in
        match ed, r5 with
        | _ :: _, [] =>
          let ev := Z.of_N (digits_N ed) in
          Some (round_dec f neg (digits_N ds) (E0 + (if eneg then - ev else ev))%Z)
        | _, _ => None
        end
      else None
    end
  end.
(** [str::parse::<f64>] *)
Definition parse_float (f : fformat) (s : str) : option flt :=
  let '(neg, body) := match s with
                      | 45 :: r => (true, r)
                      | 43 :: r => (false, r)
                      | _ => (false, s) end in
  let lb := map lower body in
  if str_eqb lb (lit "nan") then Some FNan
  else if str_eqb lb (lit "inf") || str_eqb lb (lit "infinity") then Some (FInf neg)
  else parse_float_body f neg body.
Definition parse_f64 := parse_float F64.

(** [f64::to_string] (Display) *)
Definition display_float (f : fformat) (x : flt) : str :=
  match x with
  | FNan => lit "NaN"
  | FInf s => (if s then [CH_MINUS] else []) ++ lit "inf"
  | FZero s => (if s then [CH_MINUS] else []) ++ [CH_0]
  | FFin s m e =>
    let ok D E := match parse_float_body f false (display_dec D E) with
                  | Some y => flt_eqb y (FFin false m e)
                  | None => false end in
    let '(D, E) := shortest true ok f m e in
    (* the only candidate with a trailing zero is 10 * 10^E *)
    (if s then [CH_MINUS] else []) ++ (if D mod 10 =? 0 then display_dec (D / 10) (E + 1) else display_dec D E)
  end.
Definition display_f64 := display_float F64.

(** ** Arithmetic used by serde_json and by casts (nearest-even) *)
Definition f64_of_N (v : N) : flt := round_ratio F64 false v 1.
Definition flt_neg (x : flt) : flt :=
  match x with
  | FNan => FNan | FInf s => FInf (negb s) | FZero s => FZero (negb s)
  | FFin s m e => FFin (negb s) m e
  end.
(** product / quotient of non-negative finite f64 values *)
Definition fmul (x y : flt) : flt :=
  match x, y with
  | FFin _ m e, FFin _ m' e' =>
    let '(P, Q) := ratio_of (m * m') (e + e')%Z in round_ratio F64 false P Q
  | _, _ => FZero false
  end.
Definition fdiv (x y : flt) : flt :=
  match x, y with
  | FFin _ m e, FFin _ m' e' =>
    let '(P, Q) := ratio_of m e in
    let '(P', Q') := ratio_of m' e' in
    round_ratio F64 false (P * Q') (Q * P')
  | _, _ => FZero false
  end.
(** [as f32] *)
Definition f32_of_f64 (x : flt) : flt :=
  match x with
  | FFin s m e => let '(P, Q) := ratio_of m e in round_ratio F32 s P Q
  | y => y
  end.
(** [as i32]: truncation, saturating; NaN gives 0 *)
Definition i32_of_flt (x : flt) : Z :=
  match x with
  | FNan | FZero _ => 0
  | FInf s => if s then -2147483648 else 2147483647
  | FFin s m e =>
    let '(P, Q) := ratio_of m e in
    let t := Z.of_N (P / Q) in
    if s then Z.max (- t) (-2147483648) else Z.min t 2147483647
  end.
