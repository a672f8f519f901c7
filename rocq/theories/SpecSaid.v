(** Which block trees can be read again at all, used in the statements of P_Said.v. *)
From Verif Require Import Base Flt A_Block SpecBlock SpecBack SpecSpread.

(** ** Names *)
(** the empty name of a string, number or boolean is no name *)
Definition tidy_name (n : option str) : option str := match n with Some [] => None | _ => n end.
Section Tidy.
  Context (f : ablock -> ablock).
  Definition tidy_item (i : spec_item ablock) : spec_item ablock :=
    match i with
    | SText t => SText t
    | SParam (ArgString n v) => SParam (ArgString (tidy_name n) (value_map f v))
    | SParam (ArgNumber n v) => SParam (ArgNumber (tidy_name n) (value_map f v))
    | SParam (ArgBoolean n v) => SParam (ArgBoolean (tidy_name n) (value_map f v))
    | SParam (ArgMenu n v) => SParam (ArgMenu n (value_map f v))
    end.
End Tidy.
Fixpoint tidy (b : ablock) : ablock :=
  match b with
  | MkBlock s1 s2 col op items ty => MkBlock (option_map (map tidy) s1) (option_map (map tidy) s2) col op (map (tidy_item tidy) items) ty
  end.

(** ** What can be read again *)
(** numbers are those of the format, no string is a reference to a block and no menu holds a block *)
Definition item_free (i : spec_item ablock) : Prop :=
  match i with
  | SParam (ArgString _ (AValue s)) => forall r n, s = 64 :: r -> ~ id_text r n
  | SParam (ArgNumber _ (AValue x)) => canonical F64 x = true
  | SParam (ArgMenu _ (ABlock _)) => False
  | _ => True
  end.
Definition block_free (b : ablock) : Prop := Forall item_free (ab_content b).
(** no word of a text or of a name looks like a parameter, no string begins with '@', the names of menus do not begin with a space
    and are not empty, numbers and booleans are given *)
Definition item_said (i : spec_item ablock) : Prop :=
  match i with
  | SText t => words_ok (parts t)
  | SParam a =>
    match arg_name a with Some x => words_ok (other_parts x) | None => True end /\
    match a with
    | ArgString _ (AValue s) => forall r, s <> 64 :: r
    | ArgMenu n _ => first_part n <> []
    | ArgNumber _ AEmpty | ArgBoolean _ AEmpty => False
    | _ => True
    end
  end.
Definition block_said (b : ablock) : Prop := not_list (ab_type b) /\ Forall item_said (ab_content b).
