(** Filling in the arguments of a block content: property C101. *)
From Verif Require Import Base Str Dec Flt M_Color SpecNumber SpecBlock SpecFill A_Block BlockContentProofs BlockFailProofs FillProofs.

(** ** C101: texts and blocks for arguments *)
(** [BlockContent::apply_args] gives the texts, in order, to the arguments that have no value, and changes nothing else;
    texts that are left over are ignored *)
Theorem C101_arguments is ts js : apply_args is ts = Ok js <-> exists used rest, ts = used ++ rest /\ fills is used js.
Proof. apply apply_args_ok. Qed.
Print Assumptions C101_arguments.
Theorem C101_arguments_error is ts e : apply_args is ts = Err e <-> fill_fails is ts e.
Proof. apply apply_args_err. Qed.
Print Assumptions C101_arguments_error.
Theorem C101_arguments_no_panic is ts : @apply_args ablock is ts <> Panic.
Proof. apply apply_args_nopanic. Qed.
Print Assumptions C101_arguments_no_panic.
(** afterwards every argument has a value, and more texts change nothing *)
Theorem C101_filled is ts js ts' : @apply_args ablock is ts = Ok js -> Forall (fun a => ~ is_empty a) (get_args js) /\ apply_args js ts' = Ok js.
Proof.
  intros H. split; [|now apply (fills_again is ts)]. apply apply_args_ok in H as (u & r & _ & F). apply fills_full in F. clear - F.
  induction F as [|[s|a] js K F IH]; [constructor|exact IH|]. change (get_args (SParam a :: js)) with (a :: get_args js). now constructor.
Qed.
Print Assumptions C101_filled.
(** [BlockContent::apply_blocks] asks for the block of each placeholder, in order, and puts it there; a boolean argument
    gets a value in place of the blocks true and false; nothing else changes. It asks no more after a refusal *)
Theorem C101_blocks {S} (answers : N -> S -> option (ablock * S)) is s js s' :
  apply_blocks (asked answers) ab_op_code is s = Some (Ok (js, s')) <-> places answers is s js s'.
Proof. apply apply_blocks_ok. Qed.
Print Assumptions C101_blocks.
Theorem C101_blocks_error {S} (answers : N -> S -> option (ablock * S)) is s e :
  apply_blocks (asked answers) ab_op_code is s = Some (Err e) <-> exists id, e = CeBlockNotFound id /\ place_fails answers is s id.
Proof. apply apply_blocks_err. Qed.
Print Assumptions C101_blocks_error.
Theorem C101_blocks_outcome {S} (answers : N -> S -> option (ablock * S)) is s :
  (exists js s', apply_blocks (asked answers) ab_op_code is s = Some (Ok (js, s'))) \/ exists e, apply_blocks (asked answers) ab_op_code is s = Some (Err e).
Proof. destruct (placing answers is s) as [(js & s' & _ & E)|(id & _ & E)]; rewrite E; eauto. Qed.
Print Assumptions C101_blocks_outcome.

Definition fill_items : list (spec_item ablock) :=
  [SText (lit "set"); SParam (ArgMenu (lit "view") AEmpty); SParam (ArgString None (AValue (lit "kept"))); SParam (ArgBoolean None AEmpty);
   SParam (ArgNumber (Some (lit "n")) AEmpty)].
Definition a_true : ablock := block_new CatOperator (lit "true") [SText (lit "true")] (TArgument RBoolean).
Definition a_sum : ablock := block_new CatOperator (lit "+") [SText (lit "+")] (TArgument RNumber).
(** the blocks 7 and 8, each handed out once *)
Definition once (id : N) (used : list N) : option (ablock * list N) :=
  if existsb (N.eqb id) used then None else if id =? 7 then Some (a_true, id :: used) else if id =? 8 then Some (a_sum, id :: used) else None.
Definition fill_result : list (spec_item ablock) :=
  [SText (lit "set"); SParam (ArgMenu (lit "view") (AValue (lit "a"))); SParam (ArgString None (AValue (lit "kept"))); SParam (ArgBoolean None (APlaceholder 7));
   SParam (ArgNumber (Some (lit "n")) (APlaceholder 8))].
Example C101_example :
  apply_args fill_items [lit "a"; lit "@7"; lit "@8"; lit "surplus"] = Ok fill_result /\
  apply_args fill_items [lit "a"; lit "True"; lit "@8"] = Err (CeInvalidBooleanArgument (lit "True")) /\
  apply_args fill_items [lit "@"; lit "True"] = Err (CeInvalidBlockId (lit "@")) /\
  apply_args fill_items [lit "a"; lit "true"] = Err CeRanOutOfArgs /\
  apply_blocks (asked once) ab_op_code fill_result [] =
    Some (Ok ([SText (lit "set"); SParam (ArgMenu (lit "view") (AValue (lit "a"))); SParam (ArgString None (AValue (lit "kept"))); SParam (ArgBoolean None (AValue true));
      SParam (ArgNumber (Some (lit "n")) (ABlock a_sum))], [8; 7])) /\
  apply_blocks (asked once) ab_op_code fill_result [8] = Some (Err (CeBlockNotFound 8)) /\
  apply_blocks (asked once) ab_op_code [SParam (ArgMenu (lit "view") (APlaceholder 7)); SParam (ArgString None (APlaceholder 7))] [] = Some (Err (CeBlockNotFound 7)).
Proof. repeat split; vm_compute; reflexivity. Qed.
