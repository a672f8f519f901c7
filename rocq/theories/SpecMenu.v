(** What becomes of blocks in the place of menus, used in the statements of P_Menu.v. *)
From Verif Require Import Base Flt Dec A_Block SpecBlock SpecBack.

(** texts and names can be told apart in the spec, strings do not look like references; menus may hold blocks *)
Definition item_fair (i : spec_item ablock) : Prop := match i with SParam (ArgMenu n (ABlock _)) => name_ok (Some n) | _ => item_plain i end.
Definition block_fair (b : ablock) : Prop := Forall item_fair (ab_content b).
(** Blocks are numbered as they are written: a block, then its arguments in their order, then its first and its second sub stack. [k] is the number written last.
    A block in the place of a menu becomes the text of the last number that is used for it. *)
Definition menu_out (k : N) (i : spec_item ablock) : spec_item ablock :=
  match i with
  | SParam (ArgMenu n (ABlock b)) => SParam (ArgMenu n (AValue (lit "@" ++ dec_of_N (k + N.of_nat (block_size b)))))
  | _ => i
  end.
Fixpoint menus_out (k : N) (l : list (spec_item ablock)) : list (spec_item ablock) :=
  match l with [] => [] | i :: r => menu_out k i :: menus_out (k + N.of_nat (item_size block_size i)) r end.
(** the menus of a block, those below it not changed *)
Definition numbered_menus (k : N) (b : ablock) : ablock :=
  MkBlock (ab_sub_stack1 b) (ab_sub_stack2 b) (ab_color b) (ab_op_code b) (menus_out (k + 1) (ab_content b)) (ab_type b).
Fixpoint stack_menus (k : N) (l : blocks) : blocks :=
  match l with [] => [] | b :: r => numbered_menus k b :: stack_menus (k + N.of_nat (block_size b)) r end.
(** ** Any texts and names *)
(** numbers are those of the format and no string is a reference to a block *)
Definition item_open (i : spec_item ablock) : Prop :=
  match i with
  | SParam (ArgString _ (AValue s)) => forall r n, s = 64 :: r -> ~ id_text r n
  | SParam (ArgNumber _ (AValue x)) => canonical F64 x = true
  | _ => True
  end.
Definition block_open (b : ablock) : Prop := Forall item_open (ab_content b).
