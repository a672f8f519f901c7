(** Strings that look like references to blocks, used in the statements of P_Refs.v. *)
From Verif Require Import Base Dec A_Block SpecBlock SpecBack.

(** ** References *)
(** the numbers that the strings of a block refer to: what follows a '@' and is a number (C81) *)
Definition item_refs (i : spec_item ablock) : list N :=
  match i with
  | SParam (ArgString _ (AValue (ch :: r))) => if ch =? 64 then listed (parse_u32 r) else []
  | _ => []
  end.
Definition block_refs (b : ablock) : list N := flat_map item_refs (ab_content b).
(** those of the blocks of a code that are read again *)
Definition code_refs (l : blocks) : list N := flat_map (fun b => flat_map block_refs (read_again b)) l.

(** ** Numbers *)
(** The numbers of the blocks of a code that are read again. Blocks are numbered as they are written: a block, then its arguments in their order,
    then its first and its second sub stack. [k] is the number written last; what is in the place of an argument or of a sub stack is referred to
    by the last of its numbers. *)
Definition item_numbers (k : N) (i : spec_item ablock) : list N :=
  match i with
  | SParam (ArgString _ (ABlock b)) | SParam (ArgNumber _ (ABlock b)) | SParam (ArgBoolean _ (ABlock b)) => [k + N.of_nat (block_size b)]
  | SParam (ArgBoolean _ (AValue _)) => [k + 1]
  | _ => []
  end.
Fixpoint items_numbers (k : N) (l : list (spec_item ablock)) : list N :=
  match l with [] => [] | i :: r => item_numbers k i ++ items_numbers (k + N.of_nat (item_size block_size i)) r end.
Definition sub_numbers (k : N) (s : option (list ablock)) : list N :=
  match s with Some (b :: l) => [k + N.of_nat (blocks_size (b :: l))] | _ => [] end.
Definition block_numbers (k : N) (b : ablock) : list N :=
  let k1 := k + 1 + N.of_nat (items_size block_size (ab_content b)) in
  let k2 := k1 + N.of_nat (sub_size block_size (ab_sub_stack1 b)) in
  (k + 1) :: items_numbers (k + 1) (ab_content b) ++ sub_numbers k1 (ab_sub_stack1 b) ++ sub_numbers k2 (ab_sub_stack2 b).
Fixpoint stack_numbers (k : N) (l : blocks) : list N :=
  match l with [] => [] | b :: r => block_numbers k b ++ stack_numbers (k + N.of_nat (block_size b)) r end.
Definition code_numbers (l : blocks) : list N := stack_numbers 9 l.
(** every block that is written for a code is read again *)
Definition all_read (l : blocks) : Prop := length (code_numbers l) = blocks_size l.
(** the strings of a code that are references refer to blocks that are not read in their own place, each to another one *)
Definition refs_lost (l : blocks) : Prop :=
  code_refs l <> [] /\ NoDup (code_numbers l ++ code_refs l) /\ Forall (fun n => 9 < n <= 9 + N.of_nat (blocks_size l)) (code_refs l).
(** the numbers of a code are those of the format *)
Definition block_canonical (b : ablock) : Prop :=
  Forall (fun i => match i with SParam (ArgNumber _ (AValue x)) => Flt.canonical Flt.F64 x = true | _ => True end) (ab_content b).
