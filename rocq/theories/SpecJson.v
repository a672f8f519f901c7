(** The grammar of JSON texts (RFC 8259) as relations between texts and trees, independent of the reader in [Json.v].
    Only the type of trees is shared. *)
From Verif Require Import Base Spec Json.
Local Open Scope N_scope.

(** RFC 8259 section 2: white space *)
Definition blank (w : str) : Prop := Forall (fun c => c = 32 \/ c = 9 \/ c = 10 \/ c = 13) w.

(** section 6: numbers *)
Definition digits (d : str) : Prop := d <> [] /\ Forall (fun c => 48 <= c <= 57) d.
Inductive int_text : str -> Prop :=
| int_zero : int_text (lit "0")
| int_pos c d : 49 <= c <= 57 -> Forall (fun c => 48 <= c <= 57) d -> int_text (c :: d).
Inductive frac_text : option str -> str -> Prop :=
| frac_none : frac_text None []
| frac_some d : digits d -> frac_text (Some d) (lit "." ++ d).
Inductive exp_text : option (bool * str) -> str -> Prop :=
| exp_none : exp_text None []
| exp_some e neg sign d : In e [lit "e"; lit "E"] -> In (neg, sign) [(false, []); (false, lit "+"); (true, lit "-")] ->
    digits d -> exp_text (Some (neg, d)) (e ++ sign ++ d).
Inductive num_text : jnum -> str -> Prop :=
| num_ neg i fr ft ex et : int_text i -> frac_text fr ft -> exp_text ex et ->
    num_text {| jneg := neg; jint := i; jfrac := fr; jexp := ex |} ((if neg then lit "-" else []) ++ i ++ ft ++ et).

(** section 7: strings; a unit is a character or the number of a \u escape *)
Inductive unit_text : sunit -> str -> Prop :=
| unit_char c : 32 <= c -> c <> 34 -> c <> 92 -> unit_text (UC c) [c]
| unit_escape e c : In (e, c) [(34, 34); (92, 92); (47, 47); (98, 8); (102, 12); (110, 10); (114, 13); (116, 9)] ->
    unit_text (UC c) [92; e]
| unit_hex h v : length h = 4%nat -> hexnum h = Some v -> unit_text (UE v) (92 :: 117 :: h).
(** the characters of a sequence of units: a \u escape is a character, or two of them are a surrogate pair (UTF-16) *)
Inductive unit_chars : list sunit -> str -> Prop :=
| chars_nil : unit_chars [] []
| chars_char c us s : unit_chars us s -> unit_chars (UC c :: us) (c :: s)
| chars_code u us s : ~ 0xD800 <= u < 0xE000 -> unit_chars us s -> unit_chars (UE u :: us) (u :: s)
| chars_pair h l us s : h < 1024 -> l < 1024 -> unit_chars us s ->
    unit_chars (UE (0xD800 + h) :: UE (0xDC00 + l) :: us) (0x10000 + 1024 * h + l :: s).
(** a string with lone surrogates is a JSON text, but has no characters *)
Inductive string_text : option str -> str -> Prop :=
| string_some us ts s : Forall2 unit_text us ts -> unit_chars us s -> string_text (Some s) (34 :: concat ts ++ [34])
| string_none us ts : Forall2 unit_text us ts -> (forall s, ~ unit_chars us s) -> string_text None (34 :: concat ts ++ [34]).

(** sections 3, 4 and 5: values, objects and arrays *)
Inductive value_text : json -> str -> Prop :=
| value_null : value_text JNull (lit "null")
| value_true : value_text (JBool true) (lit "true")
| value_false : value_text (JBool false) (lit "false")
| value_num n t : num_text n t -> value_text (JNum n) t
| value_string s t : string_text s t -> value_text (JStr s) t
| value_arr0 w : blank w -> value_text (JArr []) (lit "[" ++ w ++ lit "]")
| value_arr l t : elements_text l t -> value_text (JArr l) (lit "[" ++ t ++ lit "]")
| value_obj0 w : blank w -> value_text (JObj []) (lit "{" ++ w ++ lit "}")
| value_obj l t : members_text l t -> value_text (JObj l) (lit "{" ++ t ++ lit "}")
with elements_text : list json -> str -> Prop :=
| elements_one v w t w' : blank w -> value_text v t -> blank w' -> elements_text [v] (w ++ t ++ w')
| elements_more v w t w' l ts : blank w -> value_text v t -> blank w' -> elements_text l ts ->
    elements_text (v :: l) ((w ++ t ++ w') ++ lit "," ++ ts)
with members_text : list (option str * json) -> str -> Prop :=
| members_one k v w kt w1 w2 t w' : blank w -> string_text k kt -> blank w1 -> blank w2 -> value_text v t -> blank w' ->
    members_text [(k, v)] (w ++ kt ++ w1 ++ lit ":" ++ w2 ++ t ++ w')
| members_more k v w kt w1 w2 t w' l ts :
    blank w -> string_text k kt -> blank w1 -> blank w2 -> value_text v t -> blank w' -> members_text l ts ->
    members_text ((k, v) :: l) ((w ++ kt ++ w1 ++ lit ":" ++ w2 ++ t ++ w') ++ lit "," ++ ts).
(** section 2: a JSON text is a value between white space *)
Definition json_text (j : json) (s : str) : Prop := exists w t w', blank w /\ value_text j t /\ blank w' /\ s = w ++ t ++ w'.
