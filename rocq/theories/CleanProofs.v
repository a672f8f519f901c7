(** Proofs about the blocks that reading gives. *)
From Verif Require Import Base Str Dec Flt FltCanon SpecNumber NumberStdProofs M_Logic A_Block SpecBlock BlockContentProofs BlockWriteProofs BlockTripProofs BlockProofs P_Block BackProofs SpecBack SpecResave.

Definition ready_item (i : spec_item ablock) : Prop := item_plain i /\ item_filled i.
Lemma param_name_ok t letter n : param_word t letter n -> ~ In 32 t -> name_ok n.
Proof.
  intros (r & -> & H) S. destruct n as [x|]; [|exact Logic.I]. destruct H as [Hx ->]. split; [exact Hx|]. intros J. apply S. right. apply in_or_app. right. now right.
Qed.
Lemma gives_plain ws args (is : list (spec_item ablock)) : gives ws args is -> Forall (fun t => ~ In 32 t) ws -> Forall item_plain is /\ length is = length ws.
Proof.
  induction 1 as [|t ts args is Hp _ IH|t n a v ts args is Hw Hv _ IH|t n a v ts args is Hw Hv _ IH|t n a v ts args is Hw Hv _ IH|t n a ts args is Hw _ IH];
    intros F; [split; [constructor|reflexivity]|..]; apply Forall_cons_iff in F as [Ft F]; destruct (IH F) as [IH1 IH2]; (split; [|cbn [length]; now rewrite IH2]); constructor; auto; cbn [item_plain arg_name].
  - split; assumption.
  - split; [eapply param_name_ok; eauto|]. destruct v; cbn [reads_as] in Hv; auto. destruct Hv as [Hv <-]. exact Hv.
  - split; [eapply param_name_ok; eauto|exact Logic.I].
  - split; [eapply param_name_ok; eauto|]. destruct v; cbn [reads_as] in Hv; auto. destruct Hv as [_ Hv]. apply parse_f64_text in Hv. eapply parse_f64_canonical; eauto.
  - split; [apply (param_name_ok t "m" (Some n)); auto|exact Logic.I].
Qed.
Lemma reads_clean (G : N -> block -> Prop) :
  (forall id b u, reads_block G id b u -> everywhere as_read b) /\
  (forall z s u, reads_sub G z s u -> sub_all (everywhere as_read) s) /\
  (forall id l u, reads_stack G id l u -> stack_all (everywhere as_read) l) /\
  (forall h i u, reads_items G h i u -> Forall item_plain h -> length i = length h /\ Forall ready_item i /\ items_all (everywhere as_read) i) /\
  (forall a b u, reads_arg G a b u -> item_plain (SParam a) -> ready_item (SParam b) /\ item_all (everywhere as_read) (SParam b)).
Proof.
  apply (reads_ind G (fun _ b _ _ => everywhere as_read b) (fun _ s _ _ => sub_all (everywhere as_read) s) (fun _ l _ _ => stack_all (everywhere as_read) l)
    (fun h i _ _ => Forall item_plain h -> length i = length h /\ Forall ready_item i /\ items_all (everywhere as_read) i)
    (fun a b _ _ => item_plain (SParam a) -> ready_item (SParam b) /\ item_all (everywhere as_read) (SParam b))).
  - intros id pb ws holes s1 u1 s2 u2 items u3 ty Hg _ H1 _ H2 W Gv _ Hi Ht. destruct W as (Wn & Wf & _). destruct (gives_plain _ _ _ Gv Wf) as [Pl Ln]. destruct (Hi Pl) as (L & R & A).
    cbn [everywhere]. split; [|auto]. split; [|split].
    + cbn [ab_content]. intros ->. rewrite Ln in L. destruct ws; [congruence|discriminate].
    + unfold block_plain. cbn [ab_content]. eapply Forall_impl; [|exact R]. intros i K. apply K.
    + cbn [ab_content]. eapply Forall_impl; [|exact R]. intros i K. apply K.
  - intros z _. exact Logic.I.
  - intros z l u _ _ H. exact H.
  - intros id pb b u _ _ _ H. cbn [stack_all]. auto.
  - intros id pb b u l v _ _ _ H _ K. cbn [stack_all]. auto.
  - intros _. cbn [items_all]. auto.
  - intros t h i u _ IH F. apply Forall_cons_iff in F as [Ft F]. destruct (IH F) as (L & R & A). split; [cbn [length]; now rewrite L|]. split; [constructor; auto; split; [exact Ft|exact Logic.I]|]. cbn [items_all item_all]. auto.
  - intros a b v h i u _ Ha _ IH F. apply Forall_cons_iff in F as [Ft F]. destruct (IH F) as (L & R & A). destruct (Ha Ft) as [R1 A1]. split; [cbn [length]; now rewrite L|]. split; [constructor; auto|]. cbn [items_all]. auto.
  - intros n t P. repeat split; try apply P.
  - intros n t P. repeat split; try apply P.
  - intros n t P. repeat split; try apply P.
  - intros n t P. repeat split; try apply P.
  - intros n id b u _ H P. repeat split; try apply P; exact H.
  - intros n id b u _ H P. repeat split; try apply P; exact H.
  - intros n id b u _ H _ P. repeat split; try apply P; exact H.
  - intros n id b u _ H _ P. repeat split; try apply P; exact H.
  - intros n id b u _ H _ _ P. repeat split; try apply P; exact H.
Qed.
Lemma stack_all_forall (P : ablock -> Prop) l : stack_all P l <-> Forall P l.
Proof. induction l as [|b l IH]; cbn [stack_all]; [split; auto; constructor|]. rewrite Forall_cons_iff, IH. tauto. Qed.
Lemma read_clean c l : blocks_try_from c = Ok l -> Forall (everywhere as_read) l.
Proof.
  intros H. apply C55_reading in H as (u & (_ & [(_ & -> & _)|(id & _ & R)]) & _); [constructor|]. apply stack_all_forall. exact (proj1 (proj2 (proj2 (reads_clean (graph c)))) _ _ _ R).
Qed.

(** ** The blocks written last *)
Lemma everywhere_here P b : everywhere P b -> P b.
Proof. destruct b. cbn [everywhere]. tauto. Qed.
Lemma stack_last_every Q P l y : stack_all (fun b => everywhere Q b -> everywhere P (last_block b)) l -> stack_all (everywhere Q) l -> stack_last last_block l = Some y -> everywhere P y.
Proof.
  induction l as [|b l IH]; cbn [stack_all stack_last]; [discriminate|]. intros [Q1 Q2] [H1 H] E. destruct (stack_last last_block l); cbn [or_else] in E; injection E as <-; auto.
Qed.
Lemma sub_last_every Q P s y : sub_all (fun b => everywhere Q b -> everywhere P (last_block b)) s -> sub_all (everywhere Q) s -> sub_last last_block s = Some y -> everywhere P y.
Proof. destruct s as [l|]; [|discriminate]. apply stack_last_every. Qed.
Lemma items_last_every Q P items y : (forall t, everywhere P (boolean_block t)) -> items_all (fun b => everywhere Q b -> everywhere P (last_block b)) items -> items_all (everywhere Q) items ->
  items_last last_block items = Some y -> everywhere P y.
Proof.
  intros B. induction items as [|i l IH]; cbn [items_all items_last]; [discriminate|]. intros [Q1 Q2] [H1 H] E. destruct (items_last last_block l); cbn [or_else] in E; [injection E as <-; auto|].
  destruct i as [t|[n v|n v|n v|n v]]; cbn [item_all item_last] in *; [discriminate|..]; destruct v as [t|b|k|]; cbn [value_all value_last] in *; try discriminate; injection E as <-; auto.
Qed.
Lemma last_every P b : (forall t, everywhere P (boolean_block t)) -> everywhere P b -> everywhere P (last_block b).
Proof.
  intros B. induction b as [s1 s2 col op items ty Q1 Q2 Q] using ablock_induct. intros H. pose proof H as (_ & Hi & H1 & H2). rewrite last_block_below. unfold below. cbn [ab_sub_stack1 ab_sub_stack2 ab_content].
  destruct (sub_last last_block s2) as [y|] eqn:E2; cbn [or_else]; [exact (sub_last_every P P s2 y Q2 H2 E2)|]. destruct (sub_last last_block s1) as [y|] eqn:E1; cbn [or_else]; [exact (sub_last_every P P s1 y Q1 H1 E1)|].
  destruct (items_last last_block items) as [y|] eqn:E; [exact (items_last_every P P items y B Q Hi E)|exact H].
Qed.
Lemma sub_last_all P s y : (forall t, everywhere P (boolean_block t)) -> sub_all (everywhere P) s -> sub_last last_block s = Some y -> everywhere P y.
Proof. intros B H E. eapply sub_last_every; eauto. apply sub_all_intro. intros b. now apply last_every. Qed.
Lemma read_again_every P b : (forall t, everywhere P (boolean_block t)) -> everywhere P b -> Forall (everywhere P) (read_again b).
Proof.
  intros B H. unfold read_again. constructor; [exact H|]. destruct b as [s1 s2 col op items ty]. cbn [ab_sub_stack1 ab_sub_stack2 ab_content]. destruct H as (_ & Hi & H1 & H2). apply Forall_app. split; [|apply Forall_app; split].
  - destruct (sub_last last_block s1) eqn:E; cbn [listed]; constructor; [|constructor]. now apply (sub_last_all P s1).
  - destruct (sub_last last_block s2) eqn:E; cbn [listed]; constructor; [|constructor]. now apply (sub_last_all P s2).
  - clear H1 H2. induction items as [|i l IH]; cbn [flat_map]; [constructor|]. cbn [items_all] in Hi. destruct Hi as [Hi Hl]. apply Forall_app. split; [|auto].
    destruct i as [t|[n v|n v|n v|n v]]; cbn [item_read item_all] in *; try constructor; destruct v as [t|x|k|]; cbn [value_all] in *; constructor; try constructor; now apply last_every.
Qed.

(** ** What follows for blocks that have been read *)
Lemma boolean_as_read t : everywhere as_read (boolean_block t).
Proof.
  destruct t; cbn [boolean_block everywhere items_all item_all sub_all]; (split; [|auto]); (split; [discriminate|]); (split; [|repeat constructor]); unfold block_plain; cbn [ab_content]; (constructor; [cbn [item_plain]|constructor]).
  all: split; [vm_compute; intuition discriminate|intros [r K]; discriminate].
Qed.
Lemma filled_no_hole i : item_filled i -> ~ has_hole i.
Proof. destruct i as [t|[n v|n v|n v|n v]]; cbn [item_filled has_hole]; auto; destruct v; cbn [filled hole]; auto. Qed.
Lemma filled_given i : item_filled i -> item_given i.
Proof. destruct i as [t|[n v|n v|n v|n v]]; cbn [item_filled item_given]; auto; destruct v; cbn [filled]; auto. Qed.
Lemma stack_no_holes l : stack_all (fun b => everywhere as_read b -> no_holes b) l -> stack_all (everywhere as_read) l -> stack_all no_holes l.
Proof. induction l as [|b l IH]; cbn [stack_all]; tauto. Qed.
Lemma clean_no_holes b : everywhere as_read b -> no_holes b.
Proof.
  induction b as [s1 s2 col op items ty Q1 Q2 Q] using ablock_induct. intros ((_ & _ & F) & Hi & H1 & H2). cbn [ab_content] in F. cbn [no_holes]. split; [|split; [|split]].
  - eapply Forall_impl; [|exact F]. apply filled_no_hole.
  - clear F. induction items as [|i l IH]; cbn [items_all] in *; [exact Logic.I|]. destruct Q as [Qi Q], Hi as [Hi Hl]. split; [|auto].
    destruct i as [t|[n v|n v|n v|n v]]; cbn [item_all] in *; auto; destruct v; cbn [value_all] in *; auto.
  - destruct s1; cbn [sub_all] in *; auto. now apply stack_no_holes.
  - destruct s2; cbn [sub_all] in *; auto. now apply stack_no_holes.
Qed.
Lemma clean_plain l : Forall (everywhere as_read) l -> Forall no_holes l /\ Forall (fun b => Forall block_plain (read_again b)) l /\ (no_lists l <-> Forall (fun b => Forall block_given (read_again b)) l).
Proof.
  intros H. split; [|split].
  - eapply Forall_impl; [|exact H]. apply clean_no_holes.
  - eapply Forall_impl; [|exact H]. intros b Hb. eapply Forall_impl; [|exact (read_again_every _ _ boolean_as_read Hb)]. intros y K. apply everywhere_here in K. apply K.
  - unfold no_lists. rewrite !Forall_forall in *. split; intros K b I; specialize (K b I); pose proof (read_again_every _ _ boolean_as_read (H b I)) as R; rewrite Forall_forall in *; intros y J; specialize (K y J).
    + split; [exact K|]. specialize (R y J). apply everywhere_here in R as (_ & _ & R). eapply Forall_impl; [|exact R]. apply filled_given.
    + apply K.
Qed.
