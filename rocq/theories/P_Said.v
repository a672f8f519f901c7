(** Property C99: which block trees can be read again at all, with words that look like parameters, empty names and strings with '@'
    (/repo/src/api/block.rs L147-319, L635-732, L985-1035). *)
From Verif Require Import Base Str Dec Flt M_Color M_Logic A_Block SpecBlock BlockWriteProofs BackProofs SpreadProofs SaidProofs P_Block P_Back P_Spread SpecBack SpecSettle SpecSpread SpecSaid.

(** ** C99: what can be read again *)
(** whatever the texts and names: reading succeeds exactly if no word of a text or name begins with '%', no string begins with '@', menus have names,
    numbers and booleans are given and no type is that of a list; then the words come back one by one and empty names are gone *)
Theorem C99_back l c : blocks_into l = Ok c -> 9 + N.of_nat (length c) < 2 ^ 31 -> Forall (fun b => Forall block_free (read_again b)) l ->
  forall l', blocks_try_from c = Ok l' <-> Forall (fun b => Forall block_said (read_again b)) l /\ l' = map (fun b => block_back (tidy (spread b))) l.
Proof. apply said_iff. Qed.
Print Assumptions C99_back.
(** whatever the tree: an empty name is read like no name *)
Theorem C99_names l c : blocks_into l = Ok c ->
  exists c', blocks_into (map tidy l) = Ok c' /\ forall l', blocks_try_from c = Ok l' <-> blocks_try_from c' = Ok l'.
Proof. intros H. destruct (tidy_reads l c H) as (c' & E & _ & R). eauto. Qed.
Print Assumptions C99_names.
(** one word is enough for a failure *)
Theorem C99_word l c b y t w : blocks_into l = Ok c -> 9 + N.of_nat (length c) < 2 ^ 31 -> Forall (fun b => Forall block_free (read_again b)) l ->
  In b l -> In y (read_again b) -> In (SText t) (ab_content y) -> In w (parts t) -> is_param w -> forall l', blocks_try_from c <> Ok l'.
Proof.
  intros H L P Ib Iy It Iw W l' R. apply (C99_back l c H L P) in R as [K _]. rewrite Forall_forall in K. specialize (K b Ib). rewrite Forall_forall in K. destruct (K y Iy) as [_ S].
  rewrite Forall_forall in S. specialize (S _ It). cbn [item_said] in S. unfold words_ok in S. rewrite Forall_forall in S. now apply (S w Iw).
Qed.
Print Assumptions C99_word.
(** for the blocks of C97 the conditions are those of C97 *)
Theorem C99_loose b : block_loose b -> block_free b /\ (block_said b <-> block_given b).
Proof.
  intros F. unfold block_loose in F. unfold block_free, block_said, block_given.
  assert (X : Forall item_free (ab_content b) /\ (Forall item_said (ab_content b) <-> Forall item_given (ab_content b))); [|tauto].
  induction F as [|i l Hi F [IH1 IH2]]; [split; [constructor|split; constructor]|]. rewrite !Forall_cons_iff, IH2.
  assert (Y : item_free i /\ (item_said i <-> item_given i)); [|tauto]. clear - Hi.
  destruct i as [t|[n v|n v|n v|n v]]; cbn [item_loose item_free item_said item_given arg_name name_loose] in *.
  - tauto.
  - assert (Q : forall s : str, (forall r, s <> 64 :: r) -> forall r k, s = 64 :: r -> ~ id_text r k) by (intros s H r k E; destruct (H r E)).
    destruct v as [s|b|k|]; destruct Hi as [Hn Hi]; [split; [exact (Q s Hi)|]|..]; destruct n as [x|]; cbn [name_loose] in Hn; tauto.
  - destruct v as [s|b|k|], n as [x|]; cbn [name_loose] in Hi; tauto.
  - destruct v as [s|b|k|], n as [x|]; cbn [name_loose] in Hi; tauto.
  - destruct v as [s|b|k|]; tauto.
Qed.
Print Assumptions C99_loose.

(** ** Examples *)
(** a name that is empty, or begins with a space, is gone; "%s" in a text, "@x" as a string or a menu without a name stop the reading *)
Definition ask99 (t : string) (n : string) (s : string) (m : string) : ablock :=
  MkBlock None None green (lit "ask") [SText (lit t); SParam (ArgString (Some (lit n)) (AValue (lit s))); SParam (ArgMenu (lit m) (AValue (lit "x")))] TRegular.
Lemma free99 t n s m : (forall r, lit s = 64 :: r -> parse_u32 r = None) -> block_free (ask99 t n s m).
Proof.
  intros H. constructor; [exact Logic.I|]. constructor; [|constructor; [exact Logic.I|constructor]]. intros r k E X. apply P_BlockError.C81_id in X. rewrite (H r E) in X. discriminate.
Qed.
Example C99_example :
  let b := ask99 "ask for" " a name" "@home" "list" in
  let g := ask99 "ask for" " a name" "home" "list" in
  let back := MkBlock None None green (lit "ask") [SText (lit "ask"); SText (lit "for"); SParam (ArgString None (AValue (lit "home"))); SText (lit "a"); SText (lit "name"); SParam (ArgMenu (lit "list") (AValue (lit "x")))] TRegular in
  block_free b /\ ~ block_said b /\ (exists c, blocks_into [b] = Ok c /\ blocks_try_from c = Err (BlockContentParseError (CeInvalidBlockId (lit "@home")))) /\
  block_free g /\ block_said g /\ block_back (tidy (spread g)) = back /\ (exists c, blocks_into [g] = Ok c /\ blocks_try_from c = Ok [back]).
Proof.
  assert (W : forall ws, forallb (fun w => match w with c :: _ => negb (c =? 37) | [] => true end) ws = true -> words_ok ws).
  { intros ws H. apply Forall_forall. intros w I [r ->]. rewrite forallb_forall in H. specialize (H _ I). discriminate H. }
  cbv zeta. split; [apply free99; intros r [= <-]; vm_compute; reflexivity|]. split.
  - intros [_ S]. apply Forall_inv_tail, Forall_inv in S. destruct S as [_ S]. now apply (S (lit "home")).
  - split; [eexists; split; [vm_compute; reflexivity|vm_compute; reflexivity]|]. split; [apply free99; discriminate|]. split.
    + split; [exact Logic.I|]. constructor; [apply W; vm_compute; reflexivity|]. constructor; [split; [apply W; vm_compute; reflexivity|discriminate]|]. constructor; [|constructor]. split; [apply W; vm_compute; reflexivity|vm_compute; discriminate].
    + split; [vm_compute; reflexivity|]. eexists; split; [vm_compute; reflexivity|vm_compute; reflexivity].
Qed.
Example C99_word_example :
  let b := ask99 "ask %s for" "name" "home" "list" in
  block_free b /\ In (lit "%s") (parts (lit "ask %s for")) /\ (exists c e, blocks_into [b] = Ok c /\ blocks_try_from c = Err e).
Proof.
  cbv zeta. split; [apply free99; discriminate|]. split; [vm_compute; auto|]. eexists. eexists. split; [vm_compute; reflexivity|vm_compute; reflexivity].
Qed.
Example C99_names_example :
  let b := ask99 "ask" "" "home" "list" in
  exists c c', blocks_into [b] = Ok c /\ blocks_into (map tidy [b]) = Ok c' /\ map bl_spec c = [lit "ask %s. %m.list"] /\ map bl_spec c' = [lit "ask %s %m.list"] /\ blocks_try_from c = blocks_try_from c' /\ blocks_try_from c = Ok (map tidy [b]).
Proof.
  cbv zeta. do 2 eexists. split; [vm_compute; reflexivity|]. split; [vm_compute; reflexivity|]. split; [vm_compute; reflexivity|]. split; [vm_compute; reflexivity|]. split; [vm_compute; reflexivity|vm_compute; reflexivity].
Qed.
(** a menu without a name is not read: the [unwrap] of its name panics *)
Example C99_menu_example :
  let b := ask99 "ask" "name" "home" "" in block_free b /\ ~ block_said b /\ exists c, blocks_into [b] = Ok c /\ blocks_try_from c = Panic.
Proof.
  cbv zeta. split; [apply free99; discriminate|]. split; [|eexists; split; [vm_compute; reflexivity|vm_compute; reflexivity]]. intros [_ S]. apply Forall_inv_tail, Forall_inv_tail, Forall_inv in S. destruct S as [_ S]. now apply S.
Qed.
(** the tree of [C97_example] meets the looser conditions *)
Example C99_loose_example : block_free shout97 /\ block_said shout97.
Proof.
  split; [constructor; [exact Logic.I|constructor]|]. split; [exact Logic.I|]. constructor; [|constructor]. repeat (apply Forall_cons; [intros [r X]; discriminate X|]). apply Forall_nil.
Qed.
