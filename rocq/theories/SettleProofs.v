(** Proofs about saving and loading projects whose code does not survive as it is ([SpecSettle.v]). *)
From Verif Require Import Base Str M_Color ColorProofs M_Logic A_Block SpecBlock SpecSave P_Logic BlockWriteProofs BackProofs SpecBack.
From Coq Require Import ZifyNat ZifyN ZifyBool.

(** ** The colours of a tree *)
Definition color_fits (b : ablock) : Prop := cval (ab_color b) < 2 ^ 32.
Fixpoint colored (b : ablock) : Prop :=
  match b with
  | MkBlock s1 s2 col _ items _ => cval col < 2 ^ 32 /\ items_all colored items /\ sub_all colored s1 /\ sub_all colored s2
  end.
Definition conv_typed (b : ablock) : Prop :=
  forall c last bs c', convert_block b c last = Ok (bs, c') -> c' < 2 ^ 31 -> (Forall block_typed bs <-> colored b).
Lemma literal_typed t c : block_typed (literal_raw t c).
Proof. destruct t; (split; [vm_compute; reflexivity|]); repeat split; cbn; unfold is_i32; lia. Qed.
Lemma numbered_le c bs c' : numbered c bs c' -> c <= c'.
Proof. intros [-> _]. lia. Qed.
Lemma stack_typed l : stack_all conv_typed l -> forall c bs c', conv_stack convert_block l c = Ok (bs, c') -> c' < 2 ^ 31 -> (Forall block_typed bs <-> stack_all colored l).
Proof.
  induction l as [|b l IH]; cbn [stack_all conv_stack]; intros Q c bs c' H L; [injection H as <- <-; split; auto|]. destruct Q as [Q1 Q].
  apply bind_ok in H as ([x c1] & H1 & H). apply bind_ok in H as ([y c2] & H2 & [= <- <-]).
  pose proof (conv_stack_numbered l (stack_all_intro _ _ all_numbered) _ _ _ H2) as [Hn _]. apply numbered_le in Hn.
  rewrite Forall_app, (Q1 _ _ _ _ H1) by lia. now rewrite (IH Q _ _ _ H2) by lia.
Qed.
Lemma value_typed {T} (f : T -> str) (v : arg_value ablock T) c p bs c' : value_all conv_typed v -> conv_value convert_block f v c = Ok (p, bs, c') -> c' < 2 ^ 31 ->
  (Forall block_typed bs <-> value_all colored v).
Proof.
  destruct v as [t|b|i|]; cbn [value_all conv_value]; intros Q H L; try discriminate; try (injection H as <- <- <-; split; auto).
  apply bind_ok in H as ([bs0 c0] & H & [= <- <- <-]). eapply Q; eauto.
Qed.
Lemma sub_typed s c z bs c' : sub_all conv_typed s -> sub_ptr s c z bs c' -> c' < 2 ^ 31 -> (Forall block_typed bs <-> sub_all colored s) /\ is_i32 z.
Proof.
  destruct s as [[|b l]|]; cbn [sub_all sub_ptr]; intros Q H L.
  - destruct H as (-> & -> & ->). split; [split; auto|unfold is_i32; lia].
  - destruct H as (-> & _ & H). split; [now apply (stack_typed (b :: l) Q _ _ _ H)|unfold is_i32; lia].
  - destruct H as (-> & -> & ->). split; [split; auto|unfold is_i32; lia].
Qed.
Lemma i32_small n : n <= 2 ^ 31 -> is_i32 (i32_of_u32 n).
Proof. unfold i32_of_u32, is_i32. intros H. change (2 ^ 31) with 2147483648 in H. change (2 ^ 31)%Z with 2147483648%Z. destruct (N.ltb_spec n 2147483648); lia. Qed.
Lemma all_typed b : conv_typed b.
Proof.
  induction b as [s1 s2 col op items ty Q1 Q2 Q] using ablock_induct. intros c last bs c' H L. apply convert_block_inv in H as (ps & ba & c1 & z1 & b1 & c2 & z2 & b2 & Ha & H1 & H2 & ->).
  cbn [ab_content ab_sub_stack1 ab_sub_stack2] in *. cbn [colored].
  pose proof (numbered_le _ _ _ (sub_ptr_numbered _ _ _ _ _ (sub_all_intro _ _ all_numbered) H2)) as L2.
  pose proof (numbered_le _ _ _ (sub_ptr_numbered _ _ _ _ _ (sub_all_intro _ _ all_numbered) H1)) as L1.
  destruct (sub_typed _ _ _ _ _ Q2 H2 L) as [E2 I2]. destruct (sub_typed _ _ _ _ _ Q1 H1 ltac:(lia)) as [E1 I1].
  assert (A : Forall block_typed ba <-> items_all colored items).
  { assert (L3 : c1 < 2 ^ 31) by lia. clear - Q Ha L3. revert ps ba c1 Ha L3. generalize (c + 1). induction items as [|[t|a] items IH]; cbn [items_all conv_args] in *; intros c0 ps ba c1 Ha L.
    - injection Ha as <- <- <-. split; auto.
    - rewrite (IH (proj2 Q) _ _ _ _ Ha L). cbn. tauto.
    - destruct Q as [Qa Q]. apply bind_ok in Ha as ([[p x] c2] & Ha & H). apply bind_ok in H as ([[ps' y] c3] & H & [= <- <- <-]).
      pose proof (numbered_le _ _ _ (conv_args_numbered _ (items_all_intro _ _ all_numbered) _ _ _ _ H)) as L2.
      rewrite Forall_app, (IH Q _ _ _ _ H L). apply and_iff_compat_r.
      destruct a as [n v|n v|n v|n v]; cbn [item_all conv_arg] in *; try (eapply value_typed; eauto; lia).
      destruct v as [t|b|i|]; [|eapply value_typed; eauto; lia..]. injection Ha as <- <- <-. split; [intros _; exact I|]. intros _. constructor; [apply literal_typed|constructor]. }
  rewrite Forall_cons_iff, !Forall_app, A, E1, E2. unfold block_typed. cbn [raw bl_color bl_next_block bl_sub_stack1 bl_sub_stack2 ab_color].
  assert (IN : is_i32 (if last then (-1)%Z else i32_of_u32 (c' + 1))) by (destruct last; [unfold is_i32; lia|apply i32_small; lia]). tauto.
Qed.
Lemma code_colored l : 9 + N.of_nat (blocks_size l) < 2 ^ 31 -> Forall no_holes l -> (code_fits l <-> Forall colored l).
Proof.
  intros L H. assert (E : stack_all colored l <-> Forall colored l).
  { clear. induction l as [|b l IH]; cbn; split; intros H; auto; [destruct H; constructor; tauto|inversion H; tauto]. }
  destruct (proj2 (into_total l L) H) as (c & Hc). pose proof (into_stack _ _ Hc) as S. pose proof (into_sized _ _ Hc) as Z.
  pose proof (stack_typed l (stack_all_intro _ _ all_typed) _ _ _ S) as T. rewrite Z in T. rewrite <- E, <- (T L). unfold code_fits. split; [auto|]. intros F c' Hc'. congruence.
Qed.

(** ** The last block has a fitting colour, and the tree becomes no larger *)
Definition last_small (b : ablock) : Prop := (colored b -> colored (last_block b)) /\ (block_size (last_block b) <= block_size b)%nat.
Lemma stack_small l y : stack_all last_small l -> stack_last last_block l = Some y -> (stack_all colored l -> colored y) /\ (block_size y <= stack_size block_size l)%nat.
Proof.
  induction l as [|b l IH]; cbn [stack_all stack_last stack_size]; [discriminate|]. intros [[Q1 Q2] Q] E. destruct (stack_last last_block l) as [x|]; cbn [or_else] in E; injection E as <-.
  - destruct (IH Q eq_refl). split; [tauto|lia].
  - split; [tauto|lia].
Qed.
Lemma sub_small s y : sub_all last_small s -> sub_last last_block s = Some y -> (sub_all colored s -> colored y) /\ (block_size y <= sub_size block_size s)%nat.
Proof. destruct s as [l|]; [|discriminate]. apply stack_small. Qed.
Lemma item_small i y : item_all last_small i -> item_last last_block i = Some y -> (item_all colored i -> colored y) /\ (block_size y <= item_size block_size i)%nat.
Proof.
  destruct i as [t|[n v|n v|n v|n v]]; cbn [item_all item_last item_size]; [discriminate|..]; destruct v as [t|b|k|]; cbn [value_all value_last value_size]; intros Q E; try discriminate; injection E as <-;
    try exact Q.
  split; [|destruct t; cbn; lia]. intros _. destruct t; (split; [vm_compute; reflexivity|]); cbn; auto.
Qed.
Lemma items_small items y : items_all last_small items -> items_last last_block items = Some y -> (items_all colored items -> colored y) /\ (block_size y <= items_size block_size items)%nat.
Proof.
  induction items as [|i l IH]; cbn [items_all items_last items_size]; [discriminate|]. intros [Q1 Q] E. destruct (items_last last_block l) as [x|]; cbn [or_else] in E.
  - injection E as <-. destruct (IH Q eq_refl). split; [tauto|lia].
  - destruct (item_small i y Q1 E). split; [tauto|lia].
Qed.
Lemma all_small b : last_small b.
Proof.
  induction b as [s1 s2 col op items ty Q1 Q2 Q] using ablock_induct. unfold last_small. rewrite last_block_below.
  destruct (below last_block (MkBlock s1 s2 col op items ty)) as [y|] eqn:E; [|auto]. cbn [colored block_size].
  unfold below in E. cbn [ab_sub_stack1 ab_sub_stack2 ab_content] in E. destruct (sub_last last_block s2) eqn:E2; cbn [or_else] in E; [injection E as <-; destruct (sub_small s2 _ Q2 E2); split; [tauto|lia]|].
  destruct (sub_last last_block s1) eqn:E1; cbn [or_else] in E; [injection E as <-; destruct (sub_small s1 _ Q1 E1); split; [tauto|lia]|]. destruct (items_small items _ Q E); split; [tauto|lia].
Qed.
Lemma items_map (g : spec_item ablock -> spec_item ablock) items :
  (forall i, (item_all colored i -> item_all colored (g i)) /\ (item_size block_size (g i) <= item_size block_size i)%nat) ->
  (items_all colored items -> items_all colored (map g (shown items))) /\ (items_size block_size (map g (shown items)) <= items_size block_size items)%nat.
Proof.
  intros G. assert (F : (items_all colored items -> items_all colored (map g items)) /\ (items_size block_size (map g items) <= items_size block_size items)%nat).
  { induction items as [|i l [IH1 IH2]]; cbn [map items_all items_size]; [auto|]. destruct (G i). split; [tauto|lia]. }
  destruct items as [|i l]; [|exact F]. cbn [shown map items_all items_size]. destruct (G (SText [])) as [G1 G2]. cbn in G1, G2. split; [intros _; split; auto|lia].
Qed.
Lemma alone_small y : (colored y -> colored (block_alone y)) /\ (block_size (block_alone y) <= block_size y)%nat.
Proof.
  destruct y as [s1 s2 col op items ty]. unfold block_alone. cbn [ab_content ab_color ab_op_code ab_type colored block_size sub_all sub_size].
  destruct (items_map item_alone items) as [G1 G2]. { intros [t|[n v|n v|n v|n v]]; [split; auto|..]; destruct v; cbn; auto. } split; [tauto|lia].
Qed.
Lemma size_pos b : (1 <= block_size b)%nat.
Proof. destruct b. cbn. lia. Qed.
Lemma back_small b : (colored b -> colored (block_back b)) /\ (block_size (block_back b) <= block_size b)%nat.
Proof.
  destruct b as [s1 s2 col op items ty]. unfold block_back. cbn [ab_content ab_color ab_op_code ab_type ab_sub_stack1 ab_sub_stack2 colored block_size].
  assert (S : forall s, (sub_all colored s -> sub_all colored (sub_back s)) /\ (sub_size block_size (sub_back s) <= sub_size block_size s)%nat).
  { intros s. unfold sub_back. destruct (sub_last last_block s) as [y|] eqn:E; cbn [option_map sub_all sub_size stack_all stack_size]; [|split; [auto|lia]].
    destruct (sub_small s y (sub_all_intro _ _ all_small) E), (alone_small y). split; [tauto|lia]. }
  destruct (S s1), (S s2), (items_map item_back items) as [G1 G2].
  { assert (LB : forall b, (colored b -> colored (block_alone (last_block b))) /\ (block_size (block_alone (last_block b)) <= block_size b)%nat).
    { intros b. destruct (all_small b), (alone_small (last_block b)). split; [tauto|lia]. }
    intros [t|[n v|n v|n v|n v]]; [split; auto|..]; destruct v as [t|b|k|]; cbn [item_back item_alone item_all item_size value_all value_size]; auto; try apply LB.
    cbv zeta. destruct (LB b), (str_eqb _ _); [split; [intros _; exact I|apply size_pos]|]. destruct (str_eqb _ _); [split; [intros _; exact I|apply size_pos]|]. auto. }
  split; [tauto|lia].
Qed.
Lemma code_back_small l : (Forall colored l -> Forall colored (map block_back l)) /\ (blocks_size (map block_back l) <= blocks_size l)%nat.
Proof.
  induction l as [|b l [IH1 IH2]]; [split; [auto|apply le_n]|]. unfold blocks_size in *. cbn [map stack_size]. destruct (back_small b). split; [|lia]. rewrite !Forall_cons_iff. tauto.
Qed.
