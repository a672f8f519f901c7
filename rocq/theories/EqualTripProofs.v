(** Proofs about code that is written, read again and compared. *)
From Verif Require Import Base Flt A_Block SpecBlock SpecBack SpecResave A_Equal SpecEqual BlockWriteProofs CleanProofs P_Block P_Back EqualProofs.

Lemma positive_canonical x : canonical F64 (positive x) = canonical F64 x.
Proof. destruct x; reflexivity. Qed.
Section Everywhere.
  Context (P : ablock -> Prop) (H : forall b, P (positive_block b) <-> P b).
  Let same (b : ablock) : Prop := everywhere P (positive_block b) <-> everywhere P b.
  Lemma everywhere_item i : item_all same i -> (item_all (everywhere P) (item_positive positive_block i) <-> item_all (everywhere P) i).
  Proof. destruct i as [t|[n v|n v|n v|n v]]; cbn [item_positive item_all]; unfold same; try tauto; destruct v; cbn [value_positive value_all]; tauto. Qed.
  Lemma everywhere_items l : items_all same l -> (items_all (everywhere P) (map (item_positive positive_block) l) <-> items_all (everywhere P) l).
  Proof. rewrite !items_forall. intros K. apply forall_positive. eapply Forall_impl; [|exact K]. apply everywhere_item. Qed.
  Lemma everywhere_sub s : sub_all same s -> (sub_all (everywhere P) (option_map (map positive_block) s) <-> sub_all (everywhere P) s).
  Proof. destruct s as [l|]; cbn [option_map sub_all]; [|tauto]. rewrite !stack_forall. apply forall_positive. Qed.
  Lemma positive_everywhere b : everywhere P (positive_block b) <-> everywhere P b.
  Proof.
    induction b as [s1 s2 col op items ty Q1 Q2 Q] using ablock_induct. pose proof (H (MkBlock s1 s2 col op items ty)) as K. cbn [positive_block everywhere] in *.
    rewrite (everywhere_items _ Q), (everywhere_sub _ Q1), (everywhere_sub _ Q2), K. tauto.
  Qed.
End Everywhere.
Lemma content_positive b : ab_content (positive_block b) = map (item_positive positive_block) (ab_content b).
Proof. now destruct b. Qed.
Lemma map_nil_iff {A B} (f : A -> B) l : map f l <> [] <-> l <> [].
Proof. destruct l; cbn; split; congruence. Qed.
Lemma positive_as_read b : as_read (positive_block b) <-> as_read b.
Proof.
  unfold as_read, block_plain. rewrite content_positive, map_nil_iff, (forall_positive' item_plain), (forall_positive' item_filled); [tauto|..]; intros [t|[n v|n v|n v|n v]]; try reflexivity.
  all: destruct v; cbn [item_positive value_positive item_plain item_filled arg_name]; rewrite ?positive_canonical; reflexivity.
Qed.
Lemma positive_plain_value a a' : item_positive positive_block (SParam a) = SParam a' -> (plain_value a' <-> plain_value a).
Proof. destruct a as [n v|n v|n v|n v]; cbn [item_positive]; intros [= <-]; destruct v; cbn [value_positive plain_value]; rewrite ?positive_canonical; reflexivity. Qed.
Lemma positive_name a a' : item_positive positive_block (SParam a) = SParam a' -> arg_name a' = arg_name a.
Proof. destruct a as [n v|n v|n v|n v]; cbn [item_positive]; intros [= <-]; reflexivity. Qed.
Lemma positive_param a : exists a', item_positive positive_block (SParam a) = SParam a'.
Proof. destruct a as [n v|n v|n v|n v]; cbn [item_positive]; eauto. Qed.
Lemma positive_leaf b : leaf (positive_block b) <-> leaf b.
Proof.
  unfold leaf. rewrite content_positive, map_nil_iff. rewrite (forall_positive' (fun i => match i with SText t => text_ok t | SParam a => name_ok (arg_name a) /\ plain_value a end)).
  - destruct b as [s1 s2 col op items ty]. cbn [positive_block ab_sub_stack1 ab_sub_stack2 ab_type]. destruct s1, s2; cbn [option_map]; split; intros (A & B & C); try discriminate A; try discriminate B; auto.
  - intros [t|a]; [reflexivity|]. destruct (positive_param a) as (a' & E). rewrite E, (positive_name _ _ E), (positive_plain_value _ _ E). reflexivity.
Qed.
Lemma positive_op b : ab_op_code (positive_block b) = ab_op_code b.
Proof. now destruct b. Qed.
Lemma positive_kept_value a a' : item_positive positive_block (SParam a) = SParam a' -> (kept_value a' <-> kept_value a).
Proof.
  intros E. pose proof (positive_plain_value _ _ E) as K. revert E K. destruct a as [n v|n v|n v|n v]; cbn [item_positive]; intros [= <-]; destruct v; cbn [value_positive kept_value]; rewrite ?positive_leaf, ?positive_op; try reflexivity; intros K; exact K.
Qed.
Lemma positive_kept_stack s : kept_stack (option_map (map positive_block) s) <-> kept_stack s.
Proof.
  unfold kept_stack. split.
  - intros [H|(b & H & L)]; [left; destruct s; [discriminate|reflexivity]|]. destruct s as [[|x [|y l]]|]; try discriminate H. injection H as <-. right. exists x. split; [reflexivity|]. now apply positive_leaf.
  - intros [->|(b & -> & L)]; [now left|]. right. exists (positive_block b). split; [reflexivity|]. now apply positive_leaf.
Qed.
Lemma positive_kept b : SpecBlock.kept (positive_block b) <-> SpecBlock.kept b.
Proof.
  unfold SpecBlock.kept. rewrite content_positive, map_nil_iff. rewrite (forall_positive' (fun i => match i with SText t => text_ok t | SParam a => name_ok (arg_name a) /\ kept_value a end)).
  - destruct b as [s1 s2 col op items ty]. cbn [positive_block ab_sub_stack1 ab_sub_stack2 ab_type]. rewrite !positive_kept_stack. reflexivity.
  - intros [t|a]; [reflexivity|]. destruct (positive_param a) as (a' & E). rewrite E, (positive_name _ _ E), (positive_kept_value _ _ E). reflexivity.
Qed.
Lemma same_all {P : ablock -> Prop} l l' : (forall b, P (positive_block b) <-> P b) -> map positive_block l = map positive_block l' -> Forall P l' -> Forall P l.
Proof. intros H E K. apply (forall_positive' P positive_block l H). rewrite E. now apply forall_positive'. Qed.

Lemma trip_same l c : blocks_into l = Ok c -> 9 + N.of_nat (length c) < 2 ^ 31 ->
  (exists l', blocks_try_from c = Ok l' /\ blocks_same l l') <-> Forall SpecBlock.kept l /\ Forall block_numbers l.
Proof.
  intros W L. split.
  - intros (l' & R & E). apply blocks_norm in E as (N1 & E). split; [|exact N1].
    assert (C : Forall (everywhere as_read) l) by (apply (same_all l l'); [apply positive_everywhere, positive_as_read|exact E|exact (read_clean _ _ R)]).
    destruct (clean_plain l C) as (_ & Pl & _). destruct (C94_settled l c l' W L Pl R) as (K & _). exact (same_all l l' positive_kept E K).
  - intros (K & N1). exists l. split; [now apply (C31_partial l c W L)|]. apply blocks_norm. auto.
Qed.
