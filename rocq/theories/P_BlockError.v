(** What goes wrong when blocks are read: properties C81 and C82. *)
From Verif Require Import Base Str Dec Flt Spec SpecNumber SpecRecord SpecBlock M_Color M_Logic A_Block BlockContentProofs BlockProofs BlockReadProofs BlockFailProofs RecordProofs P_Block.

(** ** C81: specs and arguments *)
Theorem C81_error spec args e : @content_parse ablock spec args = Err e <-> exists ws, words spec ws /\ content_fails ws args (Some e).
Proof. exact (content_parse_fails spec args (Some e)). Qed.
Print Assumptions C81_error.
Theorem C81_panic spec args : @content_parse ablock spec args = Panic <-> exists ws, words spec ws /\ content_fails ws args None.
Proof. exact (content_parse_fails spec args None). Qed.
Print Assumptions C81_panic.
Theorem C81_spec_error spec e : @parse_wo_params ablock spec = Err e <-> exists ws, words spec ws /\ spec_fails ws (Some e).
Proof. exact (parse_wo_fails spec (Some e)). Qed.
Print Assumptions C81_spec_error.
Theorem C81_spec_panic spec : @parse_wo_params ablock spec = Panic <-> exists ws, words spec ws /\ spec_fails ws None.
Proof. exact (parse_wo_fails spec None). Qed.
Print Assumptions C81_spec_panic.
(** the numbers after @ and the ids of raw blocks *)
Theorem C81_id t n : parse_u32 t = Some n <-> id_text t n.
Proof.
  unfold parse_u32. rewrite parse_uint_spec. unfold id_text, U32MAX.
  split; intros (sign & ds & -> & I & D & V & L); exists sign, ds; repeat split; try assumption; try apply D; lia.
Qed.
Print Assumptions C81_id.
Example C81_example :
  @content_parse ablock (lit "set %m.list at %d to %s") [lit "items"; lit "one"; lit "x"] = Err (CeInvalidNumberArgument (lit "one")) /\
  @content_parse ablock (lit "set %m.list at %d to %s") [lit "items"; lit "1"; lit "@4294967296"] = Err (CeInvalidBlockId (lit "@4294967296")) /\
  @content_parse ablock (lit "set %m.list at %d to %s") [lit "items"; lit "1"] = Err CeRanOutOfArgs /\
  @content_parse ablock (lit "if %b %x") [lit "True"] = Err (CeInvalidBooleanArgument (lit "True")) /\
  @content_parse ablock (lit "if %b %x.y") [lit "true"] = Err (CeUnknownSpecParam (lit "x") (lit "%x.y")) /\
  @content_parse ablock (lit "if %b %m") [lit "true"; lit "a"] = Panic /\
  @parse_wo_params ablock (lit "if %b %x.y %m") = Err (CeUnknownSpecParam (lit "x") (lit "%x.y")).
Proof. repeat split; vm_compute; reflexivity. Qed.

(** ** C82: containers *)
Theorem C82_error c e : blocks_try_from c = Err e <-> container_fails c (Some e).
Proof. exact (try_from_fails c (Some e)). Qed.
Print Assumptions C82_error.
Theorem C82_panic c : blocks_try_from c = Panic <-> container_fails c None.
Proof. exact (try_from_fails c None). Qed.
Print Assumptions C82_panic.
(** so the description of failures is complete and picks one *)
Theorem C82_outcome c : (exists t u, reads_container c t u /\ NoDup u) \/ (exists o, container_fails c o).
Proof.
  destruct (blocks_try_from c) as [t|e|] eqn:E.
  - left. apply C55_reading in E as (u & R & U). eauto.
  - right. apply C82_error in E. eauto.
  - right. apply C82_panic in E. eauto.
Qed.
Print Assumptions C82_outcome.
Theorem C82_one c o : container_fails c o -> (forall t u, ~ (reads_container c t u /\ NoDup u)) /\ forall o', container_fails c o' -> o' = o.
Proof.
  intros H. apply try_from_fails in H. split.
  - intros t u R. assert (X : blocks_try_from c = Ok t) by (apply C55_reading; eauto). rewrite H in X. now destruct o.
  - intros o' H'. apply try_from_fails in H'. rewrite H in H'. destruct o, o'; cbn in H'; congruence.
Qed.
Print Assumptions C82_one.
Definition bad_id : block :=
  {| bl_color := green; bl_id := lit "x1"; bl_next_block := -1; bl_op_code := lit "a"; bl_parameters := []; bl_spec := lit "a"; bl_sub_stack1 := -1;
     bl_sub_stack2 := -1; bl_type := lit " "; bl_type_name := [] |}.
Example C82_example :
  (* the second substack of 10 leads back to 11, which the first has used up *)
  blocks_try_from [rb 10 (-1) (lit "ifElse") (lit "if %b") [lit "true"] 11 12 (lit "e") []; rb 11 (-1) (lit "a") (lit "a") [] (-1) (-1) (lit " ") [];
                   rb 12 11 (lit "b") (lit "b") [] (-1) (-1) (lit " ") []]
    = Err (Substack2ParseError 10 12 (BlockNotFound 11)) /\
  (* what is wrong with a block used as an argument is not told *)
  blocks_try_from [rb 10 (-1) (lit "a") (lit "%s") [lit "@11"] (-1) (-1) (lit " ") []; rb 11 (-1) (lit "b") (lit "b") [] (-1) (-1) (lit "q") []]
    = Err (BlockContentParseError (CeBlockNotFound 11)) /\
  blocks_try_from [rb 10 (-1) (lit "a") (lit "a") [] (-1) (-1) (lit "l") (lit "List Map")]
    = Err (InvalidType {| ibt_type := lit "l"; ibt_name := lit "List Map" |}) /\
  (* ids are looked at first *)
  blocks_try_from [rb 10 (-1) (lit "a") (lit "%m") [] (-1) (-1) (lit " ") []; bad_id]
    = Err (MalformedBlockId (lit "x1")) /\
  blocks_try_from [rb 10 (-1) (lit "a") (lit "%m") [lit "a"] (-1) (-1) (lit " ") []] = Panic.
Proof. repeat split; vm_compute; reflexivity. Qed.
