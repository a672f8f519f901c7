(** Property C106: strings that look like references to blocks. *)
From Verif Require Import Base Flt M_Color M_Logic A_Block SpecBlock BlockWriteProofs SpecBack SpecSpread SpecSaid SpecMenu SpecAnyCode P_Menu SpecRefs RefsProofs.

(** If code that has been written is read again, then the strings of the blocks that are read refer to blocks of the code, each to another one,
    and to none of the blocks that are read in their own place *)
Theorem C106_distinct l c l' : blocks_into l = Ok c -> 9 + N.of_nat (length c) < 2 ^ 31 -> blocks_try_from c = Ok l' ->
  NoDup (code_numbers l ++ code_refs l) /\ Forall (fun n => 9 < n <= 9 + N.of_nat (blocks_size l)) (code_numbers l ++ code_refs l).
Proof. apply refs_distinct. Qed.
Print Assumptions C106_distinct.
(** one such string that refers to a block that is read in its own place, or to no block, is enough for a failure *)
Theorem C106_string l c b y n k r : blocks_into l = Ok c -> 9 + N.of_nat (length c) < 2 ^ 31 ->
  In b l -> In y (read_again b) -> In (SParam (ArgString n (AValue (64 :: r)))) (ab_content y) -> id_text r k ->
  In k (code_numbers l) \/ k <= 9 \/ 9 + N.of_nat (blocks_size l) < k -> forall l', blocks_try_from c <> Ok l'.
Proof.
  intros H L Ib Iy Is Ik K l' X. destruct (C106_distinct l c l' H L X) as [Nd F].
  assert (Ir : In k (code_refs l)).
  { apply in_flat_map. exists b. split; [exact Ib|]. apply in_flat_map. exists y. split; [exact Iy|]. apply in_flat_map. eexists. split; [exact Is|]. cbn [item_refs].
    apply P_BlockError.C81_id in Ik. change (64 =? 64) with true. rewrite Ik. now left. }
  destruct K as [K|K].
  - apply in_split in K as (p & q & E). rewrite E, <- app_assoc in Nd. cbn [app] in Nd. apply NoDup_remove_2 in Nd. apply Nd. rewrite !in_app_iff. auto.
  - rewrite Forall_forall in F. specialize (F k). rewrite in_app_iff in F. specialize (F (or_intror Ir)). lia.
Qed.
Print Assumptions C106_string.
(** otherwise code can be read exactly if it is as C103 says, whatever its strings are *)
Theorem C106_exact l c : blocks_into l = Ok c -> 9 + N.of_nat (length c) < 2 ^ 31 -> Forall (fun b => Forall block_canonical (read_again b)) l -> ~ refs_lost l ->
  forall l', blocks_try_from c = Ok l' <-> code_said l /\ l' = code_back l.
Proof. apply refs_iff. Qed.
Print Assumptions C106_exact.
(** so it is for code of which every block is read again *)
Theorem C106_all_read l : all_read l -> ~ refs_lost l.
Proof. apply read_not_lost. Qed.
Print Assumptions C106_all_read.
(** whatever is read in another way than C103 says has a string that refers to a block that would otherwise be lost *)
Theorem C106_otherwise l c l' : blocks_into l = Ok c -> 9 + N.of_nat (length c) < 2 ^ 31 -> Forall (fun b => Forall block_canonical (read_again b)) l ->
  blocks_try_from c = Ok l' -> ~ (code_said l /\ l' = code_back l) ->
  exists k, In k (code_refs l) /\ ~ In k (code_numbers l) /\ 9 < k <= 9 + N.of_nat (blocks_size l).
Proof.
  intros H L K X No. destruct (C106_distinct l c l' H L X) as [Nd F]. destruct (code_refs l) as [|k r] eqn:R.
  - destruct No. apply (C103_any l c H L); [|exact X]. apply open_code. auto.
  - exists k. split; [now left|]. split.
    + intros Ik. apply NoDup_remove_2 in Nd. apply Nd. apply in_app_iff. auto.
    + rewrite Forall_forall in F. apply F. apply in_app_iff. right. now left.
Qed.
Print Assumptions C106_otherwise.

(** the outermost block is number 10, p is 11 and holds q, number 12, and r, number 13, which is read again in the place of p; the string of the outermost block is [s] *)
Definition ex_text (op : string) : ablock := MkBlock None None (from_rgb 1 2 3) (lit op) [SText (lit op)] TRegular.
Definition ex_refs (s : string) : blocks :=
  let p := MkBlock None None (from_rgb 1 2 3) (lit "p") [SParam (ArgString None (ABlock (ex_text "q"))); SParam (ArgString None (ABlock (ex_text "r")))] TRegular in
  [MkBlock None None (from_rgb 1 2 3) (lit "a") [SParam (ArgString None (ABlock p)); SParam (ArgString None (AValue (lit s)))] TRegular].
Definition ex_read (s : string) : option (res conv_error blocks) := match blocks_into (ex_refs s) with Ok c => Some (blocks_try_from c) | _ => None end.
Definition ex_outer (v : arg_value ablock str) : blocks :=
  [MkBlock None None (from_rgb 1 2 3) (lit "a") [SParam (ArgString None (ABlock (ex_text "r"))); SParam (ArgString None v)] TRegular].
Example C106_example :
  code_numbers (ex_refs "@12") = [10; 13] /\ code_refs (ex_refs "@12") = [12] /\ code_numbers (ex_outer (ABlock (ex_text "q"))) = [10; 11; 12] /\
  all_read (ex_outer (ABlock (ex_text "q"))) /\ ~ all_read (ex_refs "@12") /\ refs_lost (ex_refs "@12") /\ ~ refs_lost (ex_refs "@11x") /\ ~ refs_lost (ex_refs "@13") /\
  (* a string without '@'; the string that refers to q, which would be lost, becomes q; p cannot be read twice; itself; r; no block *)
  ex_read "x" = Some (Ok (ex_outer (AValue (lit "x")))) /\
  ex_read "@12" = Some (Ok (ex_outer (ABlock (ex_text "q")))) /\
  ex_read "@11" = Some (Err (BlockContentParseError (CeBlockNotFound 11))) /\
  ex_read "@10" = Some (Err (BlockContentParseError (CeBlockNotFound 10))) /\
  ex_read "@13" = Some (Err (BlockContentParseError (CeBlockNotFound 13))) /\
  ex_read "@99" = Some (Err (BlockContentParseError (CeBlockNotFound 99))) /\
  ex_read "@z" = Some (Err (BlockContentParseError (CeInvalidBlockId (lit "@z")))).
Proof.
  split; [vm_compute; reflexivity|]. split; [vm_compute; reflexivity|]. split; [vm_compute; reflexivity|]. split; [vm_compute; reflexivity|]. split; [vm_compute; discriminate|]. split; [|split; [|split]].
  - split; [vm_compute; discriminate|]. change (code_numbers (ex_refs "@12")) with [10; 13]. change (code_refs (ex_refs "@12")) with [12]. split; [repeat constructor; cbn; intuition discriminate|constructor; [vm_compute; split; [reflexivity|discriminate]|constructor]].
  - intros [Ne _]. apply Ne. vm_compute. reflexivity.
  - intros (_ & Nd & _). change (code_numbers (ex_refs "@13")) with [10; 13] in Nd. change (code_refs (ex_refs "@13")) with [13] in Nd. apply (NoDup_remove_2 [10; 13] [] 13 Nd). cbn. auto.
  - repeat split; vm_compute; reflexivity.
Qed.
