(** What becomes of blocks in the place of menus when block trees are written as raw blocks and read again: property C103. *)
From Verif Require Import Base Str Dec Flt Spec SpecBlock M_Color M_Logic A_Block BlockContentProofs BlockWriteProofs BlockTripProofs P_Block BlockProofs BackProofs SpecBack P_Back SpecSettle SpecSpread SpecSaid SpecMenu MenuProofs MenuSaidProofs.

(** ** C103: menus *)
(** like C94, for trees whose menus may hold blocks: such a menu comes back as the text of the number of the raw block written last for it *)
Theorem C103_back l c : blocks_into l = Ok c -> 9 + N.of_nat (length c) < 2 ^ 31 -> Forall (fun b => Forall block_fair (read_again b)) l ->
  forall l', blocks_try_from c = Ok l' <-> Forall (fun b => Forall block_given (read_again b)) l /\ l' = map block_back (stack_menus 9 l).
Proof. apply menu_iff. Qed.
Print Assumptions C103_back.
(** otherwise reading fails with an error, not with a panic *)
Theorem C103_no_panic l c : blocks_into l = Ok c -> 9 + N.of_nat (length c) < 2 ^ 31 -> Forall (fun b => Forall block_fair (read_again b)) l ->
  blocks_try_from c <> Panic.
Proof. apply menu_safe. Qed.
Print Assumptions C103_no_panic.
(** what has come back once comes back unchanged *)
Theorem C103_settled l c l' : blocks_into l = Ok c -> 9 + N.of_nat (length c) < 2 ^ 31 -> Forall (fun b => Forall block_fair (read_again b)) l ->
  blocks_try_from c = Ok l' -> Forall kept l' /\ map block_back l' = l' /\ stack_menus 9 l' = l'.
Proof. apply menu_settled. Qed.
Print Assumptions C103_settled.
(** no menu that held a block comes back as it was *)
Theorem C103_lost l c l' b n x : blocks_into l = Ok c -> 9 + N.of_nat (length c) < 2 ^ 31 -> Forall (fun b => Forall block_fair (read_again b)) l ->
  In b l -> In (SParam (ArgMenu n (ABlock x))) (ab_content b) -> blocks_try_from c = Ok l' -> l' <> l.
Proof.
  intros H L P Ib Ix X E. destruct (C103_settled l c l' H L P X) as (K & _). subst l'. rewrite Forall_forall in K. apply K in Ib as (_ & _ & _ & _ & F).
  rewrite Forall_forall in F. apply F in Ix as [_ Ix]. exact Ix.
Qed.
Print Assumptions C103_lost.
(** like C99, for all trees in which no string is a reference to a block: which can be read again at all, and what comes back *)
Theorem C103_any l c : blocks_into l = Ok c -> 9 + N.of_nat (length c) < 2 ^ 31 -> Forall (fun b => Forall block_open (read_again b)) l ->
  forall l', blocks_try_from c = Ok l' <-> Forall (fun b => Forall block_said (read_again b)) l /\ l' = map block_back (stack_menus 9 (map (fun b => tidy (spread b)) l)).
Proof. apply open_iff. Qed.
Print Assumptions C103_any.

(** the first block is number 10; in its menu p is 11 and q, below p, 12; the second block is 13 and the block in its second menu 14 *)
Definition ex_menu : blocks :=
  [back_with "m" (ArgMenu (lit "view") (ABlock (back_with "p" (ArgBoolean None (ABlock (back_leaf "q" (TArgument RBoolean)))) (TArgument RString)))) TRegular;
   MkBlock None None green (lit "n") [SText (lit "n"); SParam (ArgMenu (lit "list") (AValue (lit "all"))); SParam (ArgMenu (lit "view") (ABlock (back_leaf "r" (TArgument RString)))); SParam (ArgString None (ABlock (back_leaf "s" (TArgument RString))))] TRegular].
Definition ex_menu_again : blocks :=
  [back_with "m" (ArgMenu (lit "view") (AValue (lit "@12"))) TRegular;
   MkBlock None None green (lit "n") [SText (lit "n"); SParam (ArgMenu (lit "list") (AValue (lit "all"))); SParam (ArgMenu (lit "view") (AValue (lit "@14"))); SParam (ArgString None (ABlock (back_leaf "s" (TArgument RString))))] TRegular].
Example C103_example :
  (exists c, blocks_into ex_menu = Ok c /\ length c = 6%nat /\ blocks_try_from c = Ok ex_menu_again) /\
  map block_back (stack_menus 9 ex_menu) = ex_menu_again /\ Forall (fun b => Forall block_fair (read_again b)) ex_menu /\ Forall (fun b => Forall block_given (read_again b)) ex_menu.
Proof.
  assert (T : forall t, existsb (N.eqb 32) t = false -> match t with c :: _ => c =? 37 | [] => false end = false -> text_ok t).
  { intros t H1 H2. split; [intros I; apply existsb_eqb in I; congruence|]. intros [r ->]. discriminate. }
  split; [eexists; split; [vm_compute; reflexivity|split; vm_compute; reflexivity]|]. split; [vm_compute; reflexivity|]. split.
  - repeat constructor; try (apply T; vm_compute; reflexivity); cbn; auto; try discriminate; intuition discriminate.
  - repeat constructor.
Qed.
(** a menu whose name has a space, holding a block: the rest of the name becomes a text, the block the text "@11"; with an empty name reading fails *)
Definition ex_menu_spaced : blocks := [back_with "m" (ArgMenu (lit "my view") (ABlock (back_leaf "r" (TArgument RString)))) TRegular].
Definition ex_menu_nameless : blocks := [back_with "m" (ArgMenu [] (ABlock (back_leaf "r" (TArgument RString)))) TRegular].
Definition ex_menu_spaced_again : blocks := [MkBlock None None green (lit "m") [SText (lit "m"); SParam (ArgMenu (lit "my") (AValue (lit "@11"))); SText (lit "view")] TRegular].
Example C103_any_example :
  (exists c, blocks_into ex_menu_spaced = Ok c /\ blocks_try_from c = Ok ex_menu_spaced_again) /\
  map block_back (stack_menus 9 (map (fun b => tidy (spread b)) ex_menu_spaced)) = ex_menu_spaced_again /\
  Forall (fun b => Forall block_open (read_again b)) ex_menu_spaced /\
  (exists c, blocks_into ex_menu_nameless = Ok c /\ forall l', blocks_try_from c <> Ok l') /\ Forall (fun b => Forall block_open (read_again b)) ex_menu_nameless /\
  ~ Forall (fun b => Forall block_said (read_again b)) ex_menu_nameless.
Proof.
  split; [eexists; split; [vm_compute; reflexivity|vm_compute; reflexivity]|]. split; [vm_compute; reflexivity|]. split; [repeat constructor|].
  split; [eexists; split; [vm_compute; reflexivity|vm_compute; discriminate]|]. split; [repeat constructor|].
  intros F. apply Forall_inv, Forall_inv in F as [_ F]. apply Forall_inv_tail, Forall_inv in F as [_ F]. now apply F.
Qed.
