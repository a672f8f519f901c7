(** Property C105: when reading code that has been written cannot panic
    (/repo/src/api/block.rs L16-101, L147-326, L635-732, L832-897, /repo/src/api/screen.rs L70-340, /repo/src/api/mod.rs L303-450, L487-675). *)
From Verif Require Import Base Str M_Color M_Raw M_Logic M_Parsed A_Block A_View A_Screen A_Project SpecBlock SpecScreen SpecProject SpecSave SpecLoad BlockWriteProofs SaveProofs SettleSaveProofs P_Block P_Back P_Save
  P_Settle SpecBack SpecSettle SpecSpread SpecResave SpecCalm CalmProofs.

(** ** C105: no panic *)
(** Exactly the calm contents have a spec without a word on which the reader panics. *)
Theorem C105_words items : items_calm items <-> forall ws t, words (content_to_string items) ws -> In t ws -> ~ bad_word t.
Proof. apply calm_iff. Qed.
Print Assumptions C105_words.
(** Blocks, with whatever values, menus, types and references: reading what is written is no panic. *)
Theorem C105_code l c : code_calm l -> blocks_into l = Ok c -> blocks_try_from c <> Panic.
Proof. apply code_calm_safe. Qed.
Print Assumptions C105_code.
(** Any project with such code, in memory and through the files. *)
Theorem C105_memory rnd p q : Forall screen_calm (sp_screens p) -> project_into p = Ok q -> project_try_from rnd q <> Panic.
Proof. apply calm_memory. Qed.
Print Assumptions C105_memory.
Theorem C105_files mv ex rnd p dt r v : Forall screen_calm (sp_screens p) -> filed_project p -> project_fits p dt -> project_into_raw p r -> parse_from mv ex r = Ok v ->
  project_try_from rnd v <> Panic.
Proof. intros K FP PF (q & H & W). exact (calm_files mv ex rnd p q dt r v K FP PF H W). Qed.
Print Assumptions C105_files.

(** a string that is a reference to the block itself, a menu with a block, a text with '%' in a word, a name with a space: an error, no panic;
    with '%' as a word of its own, or a menu without a name, deep in the tree or not, it is a panic *)
Definition calm105 (t : str) (n : str) : ablock :=
  MkBlock None (Some [MkBlock None None green (lit "in") [SText t] TRegular]) green (lit "op")
    [SText (lit "100% sure"); SParam (ArgString (Some (lit "a b")) (AValue (lit "@10"))); SParam (ArgMenu n (ABlock (back_leaf "r" (TArgument RString))))] TRegular.
Example C105_example :
  code_calm [calm105 (lit "ok %x") (lit "my view")] /\ (exists c e, blocks_into [calm105 (lit "ok %x") (lit "my view")] = Ok c /\ blocks_try_from c = Err e) /\
  ~ code_calm [calm105 (lit "100 %") (lit "v")] /\ (exists c, blocks_into [calm105 (lit "100 %") (lit "v")] = Ok c /\ blocks_try_from c = Panic) /\
  ~ code_calm [calm105 (lit "ok") []] /\ (exists c, blocks_into [calm105 (lit "ok") []] = Ok c /\ blocks_try_from c = Panic) /\
  Forall screen_calm (sp_screens (project95 [calm105 (lit "ok %x") (lit "my view")])).
Proof.
  assert (T : forall ws, forallb (fun w => match w with c :: _ => negb (c =? 37) | [] => true end) ws = true -> calm_words ws).
  { intros ws. induction ws as [|w ws IH]; cbn [forallb]; intros H; [constructor|]. apply Bool.andb_true_iff in H as [H1 H2]. constructor; [|now apply IH].
    intros [->|[(r & -> & _)|(c & r & -> & _)]]; discriminate H1. }
  assert (X : ~ bad_word (lit "%x")) by (apply plain_letter; vm_compute; congruence).
  assert (CC : code_calm [calm105 (lit "ok %x") (lit "my view")]).
  { constructor; [|constructor]. cbn. repeat split; repeat (constructor; try exact I); try (apply T; vm_compute; reflexivity); try (vm_compute; discriminate); try exact X; try (intros [B|[(r & B & _)|(c & r & B & _)]]; vm_compute in B; discriminate B). }
  split; [exact CC|]. split; [do 2 eexists; split; [vm_compute; reflexivity|vm_compute; reflexivity]|].
  split.
  { intros F. apply Forall_inv in F. cbn [everywhere calm105 sub_all stack_all] in F. destruct F as (_ & _ & _ & (F & _) & _). apply Forall_inv, Forall_inv_tail, Forall_inv in F. apply F. now left. }
  split; [eexists; split; [vm_compute; reflexivity|vm_compute; reflexivity]|].
  split.
  { intros F. apply Forall_inv in F. cbn [everywhere calm105] in F. destruct F as (F & _). apply Forall_inv_tail, Forall_inv_tail, Forall_inv in F. now apply F. }
  split; [eexists; split; [vm_compute; reflexivity|vm_compute; reflexivity]|].
  constructor; [|constructor]. split; [repeat (constructor; [exact CC|]); constructor|]. repeat (constructor; cbn; try (apply T; vm_compute; reflexivity); auto); try (vm_compute; discriminate).
Qed.
