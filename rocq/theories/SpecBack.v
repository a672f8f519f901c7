(** What a block tree becomes when it is written as raw blocks and read again, used in the statements of P_Back.v. *)
From Verif Require Import Base Flt A_Block SpecBlock.

Definition or_else {A} (x y : option A) : option A := match x with Some _ => x | None => y end.
Definition listed {A} (x : option A) : list A := match x with Some a => [a] | None => [] end.
(** ** The block of a tree that is written last *)
(** the block that is written for a boolean value *)
Definition boolean_block (t : bool) : ablock :=
  let name := lit (if t then "true" else "false") in
  MkBlock None None (color_of_category CatOperator) name [SText name] (TArgument RBoolean).
Section Last.
  Context (f : ablock -> ablock).
  Definition value_last {T} (v : arg_value ablock T) : option ablock := match v with ABlock b => Some (f b) | _ => None end.
  Definition item_last (i : spec_item ablock) : option ablock :=
    match i with
    | SText _ => None
    | SParam (ArgString _ v) => value_last v
    | SParam (ArgNumber _ v) => value_last v
    | SParam (ArgBoolean _ (AValue t)) => Some (boolean_block t)
    | SParam (ArgBoolean _ v) => value_last v
    | SParam (ArgMenu _ v) => value_last v
    end.
  Fixpoint items_last (l : list (spec_item ablock)) : option ablock :=
    match l with [] => None | i :: r => or_else (items_last r) (item_last i) end.
  Fixpoint stack_last (l : list ablock) : option ablock :=
    match l with [] => None | b :: r => or_else (stack_last r) (Some (f b)) end.
  Definition sub_last (s : option (list ablock)) : option ablock := match s with Some l => stack_last l | None => None end.
  (** below a block: its second sub stack, else its first, else its arguments *)
  Definition below (b : ablock) : option ablock :=
    or_else (sub_last (ab_sub_stack2 b)) (or_else (sub_last (ab_sub_stack1 b)) (items_last (ab_content b))).
End Last.
Fixpoint last_block (b : ablock) : ablock :=
  match b with
  | MkBlock s1 s2 _ _ items _ =>
    match or_else (sub_last last_block s2) (or_else (sub_last last_block s1) (items_last last_block items)) with
    | Some y => y
    | None => b
    end
  end.

(** ** What comes back *)
(** an empty content is written like an empty text *)
Definition shown (items : list (spec_item ablock)) : list (spec_item ablock) := match items with [] => [SText []] | _ => items end.
(** the items of a block below which there is nothing: an empty string is a string *)
Definition item_alone (i : spec_item ablock) : spec_item ablock :=
  match i with
  | SParam (ArgString n AEmpty) => SParam (ArgString n (AValue []))
  | SParam (ArgMenu n AEmpty) => SParam (ArgMenu n (AValue []))
  | _ => i
  end.
Definition block_alone (b : ablock) : ablock :=
  MkBlock None None (ab_color b) (ab_op_code b) (map item_alone (shown (ab_content b))) (ab_type b).
(** a block in the place of an argument or of a sub stack is replaced by the block written last in it *)
Definition item_back (i : spec_item ablock) : spec_item ablock :=
  match i with
  | SParam (ArgString n (ABlock b)) => SParam (ArgString n (ABlock (block_alone (last_block b))))
  | SParam (ArgNumber n (ABlock b)) => SParam (ArgNumber n (ABlock (block_alone (last_block b))))
  | SParam (ArgBoolean n (ABlock b)) =>
    let y := last_block b in
    SParam (ArgBoolean n (if str_eqb (ab_op_code y) (lit "true") then AValue true
                          else if str_eqb (ab_op_code y) (lit "false") then AValue false else ABlock (block_alone y)))
  | _ => item_alone i
  end.
Definition sub_back (s : option (list ablock)) : option (list ablock) :=
  option_map (fun y => [block_alone y]) (sub_last last_block s).
Definition block_back (b : ablock) : ablock :=
  MkBlock (sub_back (ab_sub_stack1 b)) (sub_back (ab_sub_stack2 b)) (ab_color b) (ab_op_code b)
    (map item_back (shown (ab_content b))) (ab_type b).

(** ** Which blocks matter *)
(** the blocks that are read again: those of the outermost stack and the last ones of their arguments and sub stacks *)
Definition item_read (i : spec_item ablock) : list ablock :=
  match i with
  | SParam (ArgString _ (ABlock b)) | SParam (ArgNumber _ (ABlock b)) | SParam (ArgBoolean _ (ABlock b)) => [last_block b]
  | _ => []
  end.
Definition read_again (b : ablock) : list ablock :=
  b :: listed (sub_last last_block (ab_sub_stack1 b)) ++ listed (sub_last last_block (ab_sub_stack2 b)) ++ flat_map item_read (ab_content b).
(** texts and names can be told apart in the spec, strings do not look like references, menus hold no blocks *)
Definition item_plain (i : spec_item ablock) : Prop :=
  match i with
  | SText t => text_ok t
  | SParam a => name_ok (arg_name a) /\
    match a with
    | ArgString _ (AValue s) => forall r, s <> 64 :: r
    | ArgNumber _ (AValue x) => canonical F64 x = true
    | ArgMenu _ (ABlock _) => False
    | _ => True
    end
  end.
Definition block_plain (b : ablock) : Prop := Forall item_plain (ab_content b).
(** numbers and booleans are given, and the type is not that of a list *)
Definition item_given (i : spec_item ablock) : Prop :=
  match i with
  | SParam (ArgNumber _ AEmpty) | SParam (ArgBoolean _ AEmpty) => False
  | _ => True
  end.
Definition block_given (b : ablock) : Prop := not_list (ab_type b) /\ Forall item_given (ab_content b).
