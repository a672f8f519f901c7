(** Proofs about what comes back of any code ([SpecAnyCode.v]): it can be written and survives. *)
From Verif Require Import Base Str M_Color ColorProofs M_Logic A_Block SpecBlock SpecScreen SpecSave P_Logic BlockWriteProofs BackProofs SpecBack SettleProofs ScreenProofs SpreadProofs SaidProofs SpecSettle SpecSpread SpecSaid SpecMenu MenuProofs
  MenuSaidProofs SpecRefs RefsProofs SpecAnyCode.
From Coq Require Import ZifyNat ZifyN ZifyBool.

Lemma open_back l c : code_open l -> blocks_into l = Ok c -> forall l', blocks_try_from c = Ok l' <-> code_said l /\ l' = code_back l.
Proof. intros (L & _ & K & NL) H. apply refs_iff; auto. now rewrite (into_sized _ _ H). Qed.
Lemma code_open_none l : 9 + N.of_nat (blocks_size l) < 2 ^ 31 -> Forall no_holes l -> Forall (fun b => Forall block_open (read_again b)) l -> code_open l.
Proof. intros L H P. apply open_code in P as [R K]. split; [exact L|]. split; [exact H|]. split; [exact K|]. intros [Ne _]. now rewrite R in Ne. Qed.
Lemma open_into l : code_open l -> exists c, blocks_into l = Ok c.
Proof. intros (L & H & _). now apply into_total. Qed.
(** the words of a tree *)
Lemma worded l : 9 + N.of_nat (blocks_size l) < 2 ^ 31 -> Forall no_holes l -> let m := map (fun b => tidy (spread b)) l in
  blocks_size m = blocks_size l /\ Forall no_holes m /\ (code_fits l -> code_fits m).
Proof.
  intros L H m. destruct (proj2 (into_total l L) H) as (c & C). pose proof C as C0. rewrite <- spread_into in C. destruct (tidy_into _ _ C) as (c' & C' & Lk). rewrite map_map in C'. fold m in C'.
  assert (Ln : length c' = length c) by (rewrite <- (map_length bl_id c'), (likes_ids _ _ Lk); apply map_length).
  assert (Sz : blocks_size m = blocks_size l) by (rewrite <- (into_sized _ _ C'), <- (into_sized _ _ C0); exact Ln).
  split; [exact Sz|]. split; [apply into_total; [now rewrite Sz|eauto]|]. intros F d D. rewrite C' in D. injection D as <-. specialize (F c C0). clear - F Lk.
  induction Lk as [|x y l m (E1 & _ & E2 & _ & _ & E3 & E4 & _) _ IH]; [constructor|]. apply Forall_cons_iff in F as [Fx F]. constructor; [|auto]. unfold block_typed in *. now rewrite E1, E2, E3, E4.
Qed.
(** replacing the blocks of menus by texts *)
Lemma menus_small k items : (items_all colored items -> items_all colored (menus_out k items)) /\ (items_size block_size (menus_out k items) <= items_size block_size items)%nat.
Proof.
  revert k. induction items as [|i l IH]; intros k; cbn [menus_out items_all items_size]; [auto|]. destruct (IH (k + N.of_nat (item_size block_size i))) as [A B].
  assert (X : (item_all colored i -> item_all colored (menu_out k i)) /\ (item_size block_size (menu_out k i) <= item_size block_size i)%nat).
  { destruct i as [t|[n v|n v|n v|n v]]; cbn [menu_out]; auto. destruct v; cbn; auto. split; [auto|lia]. }
  destruct X. split; [tauto|lia].
Qed.
Lemma numbered_small k b : (colored b -> colored (numbered_menus k b)) /\ (block_size (numbered_menus k b) <= block_size b)%nat.
Proof.
  destruct b as [s1 s2 col op items ty]. unfold numbered_menus. cbn [ab_content ab_color ab_op_code ab_type ab_sub_stack1 ab_sub_stack2 colored block_size]. destruct (menus_small (k + 1) items). split; [tauto|lia].
Qed.
Lemma stack_menus_small l : forall k, (Forall colored l -> Forall colored (stack_menus k l)) /\ (blocks_size (stack_menus k l) <= blocks_size l)%nat.
Proof.
  induction l as [|b l IH]; intros k; cbn [stack_menus]; [split; [auto|apply le_n]|]. unfold blocks_size in *. cbn [stack_size]. destruct (IH (k + N.of_nat (block_size b))), (numbered_small k b). split; [|lia]. rewrite !Forall_cons_iff. tauto.
Qed.
Lemma said_kept l : code_open l -> code_said l -> Forall kept (code_back l).
Proof.
  intros (L & H & C & _) K. assert (P : Forall (fun b => Forall block_open (read_again b)) l) by (apply open_code; split; [now apply said_refs|exact C]).
  destruct (worded l L H) as (_ & Nh & _). unfold code_back. generalize 9. clear C. revert P K Nh. clear. induction l as [|b l IH]; intros P K Nh k; cbn [map stack_menus] in *; [constructor|].
  apply Forall_cons_iff in P as [Pb P]. apply Forall_cons_iff in K as [Kb K]. apply Forall_cons_iff in Nh as [Nb Nh]. constructor; [|now apply IH]. apply menu_kept; [exact Nb|..]; rewrite words_again; apply Forall_map; rewrite Forall_forall in *; intros y Iy;
    destruct (proj2 (good_tidy y) (Kb y Iy)) as [T G]; destruct (wides_good _ (wide_tidy y (Pb y Iy)) G); [assumption|split; assumption].
Qed.
Lemma code_back_size l : code_open l -> (blocks_size (code_back l) <= blocks_size l)%nat.
Proof.
  intros (L & H & _). destruct (worded l L H) as (Sz & _). unfold code_back. pose proof (proj2 (code_back_small (stack_menus 9 (map (fun b => tidy (spread b)) l)))).
  pose proof (proj2 (stack_menus_small (map (fun b => tidy (spread b)) l) 9)). cbv zeta in Sz. rewrite Sz in *. lia.
Qed.
Lemma said_survives l : code_open l -> code_said l -> survives (code_back l).
Proof. intros P K. apply survives_kept; [|now apply said_kept]. pose proof (code_back_size l P). destruct P. lia. Qed.
Lemma said_fits l : code_open l -> code_said l -> code_fits l -> code_fits (code_back l).
Proof.
  intros P K F. pose proof (code_back_size l P) as Sz. pose proof (said_kept l P K) as Kp. destruct P as (L & H & _). destruct (worded l L H) as (Sw & Nw & Fw). cbv zeta in *.
  apply code_colored; [lia| |].
  - eapply Forall_impl; [|exact Kp]. apply kept_no_holes.
  - unfold code_back. apply code_back_small, stack_menus_small. apply code_colored; [now rewrite Sw|exact Nw|auto].
Qed.
