(** Proofs about writing blocks as raw blocks and reading them back ([A_Block.v]). *)
From Verif Require Import Base Spec Str Dec Flt FltProofs FltCanon M_Color ColorProofs M_Logic A_Block SpecBlock LogicMapProofs BlockContentProofs BlockProofs BlockReadProofs.
From Coq Require Import ZifyNat ZifyN ZifyBool.

(** ** Induction over trees *)
Section BlockInd.
  Context (P : ablock -> Prop)
    (H : forall s1 s2 col op items ty, sub_all P s1 -> sub_all P s2 -> items_all P items -> P (MkBlock s1 s2 col op items ty)).
  Fixpoint ablock_induct (b : ablock) : P b :=
    match b with
    | MkBlock s1 s2 col op items ty =>
      let stack := fix stack (l : list ablock) : stack_all P l :=
        match l with [] => I | x :: r => conj (ablock_induct x) (stack r) end in
      let sub := fun s : option (list ablock) => match s return sub_all P s with Some l => stack l | None => I end in
      let value := fun T (v : arg_value ablock T) => match v return value_all P v with ABlock x => ablock_induct x | _ => I end in
      let item := fun i : spec_item ablock => match i return item_all P i with
        | SText _ => I
        | SParam (ArgString _ v) => value _ v
        | SParam (ArgNumber _ v) => value _ v
        | SParam (ArgBoolean _ v) => value _ v
        | SParam (ArgMenu _ v) => value _ v end in
      let its := fix its (l : list (spec_item ablock)) : items_all P l :=
        match l with [] => I | i :: r => conj (item i) (its r) end in
      H s1 s2 col op items ty (sub s1) (sub s2) (its items)
    end.
End BlockInd.

(** ** The literal block *)
Lemma convert_literal v c : convert_block (literal_block v) c true = Ok ([literal_raw v (c + 1)], c + 1).
Proof. destruct v; reflexivity. Qed.

(** ** Inversion of the writers *)
Lemma bind_ok {E A C} (x : res E A) (f : A -> res E C) y : bind x f = Ok y <-> exists a, x = Ok a /\ f a = Ok y.
Proof. destruct x; cbn; split; try discriminate; eauto; intros (? & [= <-] & ?) || intros (? & ? & ?); auto; discriminate. Qed.
Lemma parse_i32_dec n z : parse_i32 (dec_of_N n) = Some z -> z = Z.of_N n /\ n < 2 ^ 31.
Proof.
  unfold parse_i32. rewrite parse_int_nosign.
  - unfold parse_uint. destruct (dec_of_N_head n) as (d & r & E & D & _). rewrite E. apply is_digit_range in D.
    replace (match d :: r with 43 :: t => t | _ => d :: r end) with (d :: r).
    2:{ destruct (N.eq_dec d 43); [lia|]. destruct d as [|p]; auto. repeat (destruct p; auto). congruence. }
    rewrite <- E, nat_text_dec. destruct (N.leb_spec n I32MAX); [|discriminate]. intros [= <-]. unfold I32MAX in *. split; [reflexivity|lia].
  - destruct (dec_of_N_head n) as (d & r & -> & D & _). apply is_digit_range in D. cbn. lia.
Qed.

(** ** Numbers *)
Definition numbered (c : N) (bs : list block) (c' : N) : Prop :=
  c' = c + N.of_nat (length bs) /\ forall i b, nth_error bs i = Some b -> bl_id b = dec_of_N (c + 1 + N.of_nat i).
Lemma numbered_nil c : numbered c [] c.
Proof. split; [cbn; lia|]. intros [|i] b; discriminate. Qed.
Lemma numbered_one c pb : bl_id pb = dec_of_N (c + 1) -> numbered c [pb] (c + 1).
Proof. intros H. split; [reflexivity|]. intros [|[|i]] b; cbn [nth_error]; try discriminate. intros [= <-]. now rewrite N.add_0_r. Qed.
Lemma numbered_app c x c1 y c2 : numbered c x c1 -> numbered c1 y c2 -> numbered c (x ++ y) c2.
Proof.
  intros [-> H1] [-> H2]. split; [rewrite app_length; lia|]. intros i b H. destruct (Nat.lt_ge_cases i (length x)) as [L|L].
  - rewrite nth_error_app1 in H by auto. auto.
  - rewrite nth_error_app2 in H by auto. apply H2 in H. rewrite H. f_equal. lia.
Qed.
Definition conv_numbered (b : ablock) : Prop :=
  forall c last bs c', convert_block b c last = Ok (bs, c') -> numbered c bs c' /\ bs <> [].
Lemma conv_value_numbered {T} (f : T -> str) v c p bs c' : value_all conv_numbered v ->
  conv_value convert_block f v c = Ok (p, bs, c') -> numbered c bs c'.
Proof.
  destruct v as [t|b|i|]; cbn [value_all conv_value]; intros Q H; try discriminate; try (injection H as <- <- <-; apply numbered_nil).
  apply bind_ok in H as ([bs0 c0] & H & [= <- <- <-]). now apply Q in H.
Qed.
Lemma conv_arg_numbered a c p bs c' : item_all conv_numbered (SParam a) -> conv_arg convert_block a c = Ok (p, bs, c') -> numbered c bs c'.
Proof.
  destruct a as [n v|n v|n v|n v]; cbn [item_all conv_arg]; try (now apply conv_value_numbered).
  destruct v as [t|b|i|]; try (now apply conv_value_numbered). intros _ [= <- <- <-]. now apply numbered_one.
Qed.
Lemma conv_args_numbered items : items_all conv_numbered items -> forall c ps bs c', conv_args convert_block items c = Ok (ps, bs, c') -> numbered c bs c'.
Proof.
  induction items as [|[t|a] items IH]; cbn [items_all conv_args]; intros Q c ps bs c' H.
  - injection H as <- <- <-. apply numbered_nil.
  - eapply IH; [apply Q|eauto].
  - destruct Q as [Q1 Q2]. apply bind_ok in H as ([[p b1] c1] & H1 & H). apply bind_ok in H as ([[ps' b2] c2] & H2 & [= <- <- <-]).
    apply conv_arg_numbered in H1; auto. apply IH in H2; auto. eapply numbered_app; eauto.
Qed.
Lemma conv_stack_numbered l : stack_all conv_numbered l -> forall c bs c', conv_stack convert_block l c = Ok (bs, c') -> numbered c bs c' /\ (bs = [] <-> l = []).
Proof.
  induction l as [|b l IH]; cbn [stack_all conv_stack]; intros Q c bs c' H.
  - injection H as <- <-. split; [apply numbered_nil|tauto].
  - destruct Q as [Q1 Q2]. apply bind_ok in H as ([x c1] & H1 & H). apply bind_ok in H as ([y c2] & H2 & [= <- <-]).
    apply Q1 in H1 as [H1 Hx]. apply IH in H2 as [H2 _]; auto. split; [eapply numbered_app; eauto|].
    split; [|discriminate]. intros E. apply app_eq_nil in E. tauto.
Qed.
(** the pointer to a sub stack is the id of its last raw block, and the counter goes on *)
Definition sub_ptr (s : option (list ablock)) (c : N) (z : Z) (bs : list block) (c' : N) : Prop :=
  match s with
  | None => z = (-1)%Z /\ bs = [] /\ c' = c
  | Some [] => z = (-1)%Z /\ bs = [] /\ c' = c
  | Some l => z = Z.of_N c' /\ c' < 2 ^ 31 /\ conv_stack convert_block l c = Ok (bs, c')
  end.
Lemma numbered_last c bs c' : numbered c bs c' -> bs <> [] -> exists pre pb, bs = pre ++ [pb] /\ bl_id pb = dec_of_N c'.
Proof.
  intros [-> H] Hn. destruct (exists_last Hn) as (pre & pb & ->). exists pre, pb. split; [reflexivity|].
  rewrite (H (length pre) pb). { f_equal. rewrite app_length. cbn. lia. }
  rewrite nth_error_app2, Nat.sub_diag by lia. reflexivity.
Qed.
Lemma last_id_numbered c bs c' z : numbered c bs c' -> bs <> [] -> last_id bs = Ok z -> z = Z.of_N c' /\ c' < 2 ^ 31.
Proof.
  intros H Hn. destruct (numbered_last _ _ _ H Hn) as (pre & pb & -> & I). unfold last_id. rewrite rev_app_distr. cbn [rev app].
  rewrite I. destruct (parse_i32 (dec_of_N c')) eqn:P; cbn [unwrap]; [|discriminate]. intros [= <-]. now apply parse_i32_dec.
Qed.
Lemma u32_of_i32_nat n : n < 2 ^ 31 -> u32_of_i32 (Z.of_N n) = n.
Proof. intros H. replace (Z.of_N n) with (i32_of_u32 n). { apply u32_i32. lia. } unfold i32_of_u32. destruct (N.ltb_spec n 2147483648); lia. Qed.
Lemma conv_sub_ptr s c z bs c' : sub_all conv_numbered s -> conv_sub convert_block s c = Ok (z, bs, c') -> sub_ptr s c z bs c'.
Proof.
  destruct s as [l|]; cbn [sub_all conv_sub sub_ptr]; intros Q H; [|injection H as <- <- <-; auto].
  apply bind_ok in H as ([bs0 c0] & H & K). apply bind_ok in K as (z0 & Hz & [= <- <- <-]).
  destruct (conv_stack_numbered _ Q _ _ _ H) as [Hn He].
  destruct l as [|b l].
  - rewrite (proj2 He eq_refl) in *. cbn in Hz. injection Hz as <-. auto.
  - destruct (last_id_numbered c bs0 c0 z0 Hn) as [-> Hb]; [intros E; apply He in E; discriminate|auto|].
    replace (Z.of_N c0 =? -1)%Z with false by lia. rewrite u32_of_i32_nat by auto. auto.
Qed.
Lemma sub_ptr_numbered s c z bs c' : sub_all conv_numbered s -> sub_ptr s c z bs c' -> numbered c bs c'.
Proof.
  destruct s as [[|b l]|]; cbn [sub_ptr sub_all]; intros Q H.
  - destruct H as (_ & -> & ->). apply numbered_nil.
  - destruct H as (_ & _ & H). now apply conv_stack_numbered in H.
  - destruct H as (_ & -> & ->). apply numbered_nil.
Qed.
(** the raw block of a block *)
Definition raw (b : ablock) (id : N) (next : Z) (ps : list str) (z1 z2 : Z) : block :=
  {| bl_color := ab_color b; bl_id := dec_of_N id; bl_next_block := next; bl_op_code := ab_op_code b; bl_parameters := ps;
     bl_spec := content_to_string (fst (take_args (ab_content b))); bl_sub_stack1 := z1; bl_sub_stack2 := z2;
     bl_type := block_type_to_string (ab_type b); bl_type_name := match get_typename (ab_type b) with Some n => n | None => [] end |}.
Lemma all_numbered b : conv_numbered b.
Proof.
  induction b as [s1 s2 col op items ty Q1 Q2 Q] using ablock_induct. intros c last bs c' H. cbn [convert_block] in H.
  apply bind_ok in H as ([[ps ba] c1] & Ha & H). apply bind_ok in H as ([[z1 b1] c2] & H1 & H). apply bind_ok in H as ([[z2 b2] c3] & H2 & [= <- <-]).
  split; [|discriminate]. apply conv_args_numbered in Ha; auto. apply conv_sub_ptr, sub_ptr_numbered in H1; auto. apply conv_sub_ptr, sub_ptr_numbered in H2; auto.
  match goal with |- numbered c (?x :: ?y) _ => change (x :: y) with ([x] ++ y) end.
  eapply numbered_app; [now apply numbered_one|]. eapply numbered_app; [eauto|]. eapply numbered_app; eauto.
Qed.
Lemma stack_all_intro (P : ablock -> Prop) l : (forall b, P b) -> stack_all P l.
Proof. intros H. induction l; cbn; auto. Qed.
Lemma sub_all_intro (P : ablock -> Prop) s : (forall b, P b) -> sub_all P s.
Proof. intros H. destruct s; cbn; auto. now apply stack_all_intro. Qed.
Lemma item_all_intro (P : ablock -> Prop) i : (forall b, P b) -> item_all P i.
Proof. intros H. destruct i as [t|[n v|n v|n v|n v]]; cbn; auto; destruct v; cbn; auto. Qed.
Lemma items_all_intro (P : ablock -> Prop) l : (forall b, P b) -> items_all P l.
Proof. intros H. induction l; cbn; auto. split; auto. now apply item_all_intro. Qed.
(** [convert_block] taken apart *)
Lemma convert_block_inv b c last bs c' : convert_block b c last = Ok (bs, c') ->
  exists ps ba c1 z1 b1 c2 z2 b2,
    conv_args convert_block (ab_content b) (c + 1) = Ok (ps, ba, c1) /\
    sub_ptr (ab_sub_stack1 b) c1 z1 b1 c2 /\ sub_ptr (ab_sub_stack2 b) c2 z2 b2 c' /\
    bs = raw b (c + 1) (if last then (-1)%Z else i32_of_u32 (c' + 1)) ps z1 z2 :: ba ++ b1 ++ b2.
Proof.
  destruct b as [s1 s2 col op items ty]. intros H. cbn [convert_block] in H.
  apply bind_ok in H as ([[ps ba] c1] & Ha & H). apply bind_ok in H as ([[z1 b1] c2] & H1 & H). apply bind_ok in H as ([[z2 b2] c3] & H2 & [= <- <-]).
  apply conv_sub_ptr in H1; [|apply sub_all_intro, all_numbered]. apply conv_sub_ptr in H2; [|apply sub_all_intro, all_numbered].
  exists ps, ba, c1, z1, b1, c2, z2, b2. auto.
Qed.
Lemma into_numbered l c : blocks_into l = Ok c -> numbered 9 c (9 + N.of_nat (length c)) /\ (c = [] <-> l = []).
Proof.
  unfold blocks_into, to_block_container. change (10 - 1) with 9. destruct (conv_stack convert_block l 9) as [[bs c']| |] eqn:E; cbn [rmap fst]; try discriminate.
  intros [= <-]. apply conv_stack_numbered in E as [H He]; [|apply stack_all_intro, all_numbered]. split; auto. pose proof (proj1 H) as ->. exact H.
Qed.
Lemma into_stack l c : blocks_into l = Ok c -> conv_stack convert_block l 9 = Ok (c, 9 + N.of_nat (length c)).
Proof.
  intros H. pose proof (into_numbered _ _ H) as [[_ _] _]. unfold blocks_into, to_block_container in H. change (10 - 1) with 9 in H.
  destruct (conv_stack convert_block l 9) as [[bs c']| |] eqn:E; cbn [rmap fst] in H; try discriminate. injection H as <-.
  apply conv_stack_numbered in E as H; [|apply stack_all_intro, all_numbered]. destruct H as [[-> _] _]. reflexivity.
Qed.

(** ** Sizes and totality *)
Definition conv_sized (b : ablock) : Prop := forall c last bs c', convert_block b c last = Ok (bs, c') -> length bs = block_size b.
Lemma all_sized b : conv_sized b.
Proof.
  induction b as [s1 s2 col op items ty Q1 Q2 Q] using ablock_induct. intros c last bs c' H. apply convert_block_inv in H as (ps & ba & c1 & z1 & b1 & c2 & z2 & b2 & Ha & H1 & H2 & ->).
  cbn [ab_content ab_sub_stack1 ab_sub_stack2] in *. cbn [length block_size]. rewrite !app_length. f_equal.
  assert (S : forall l, stack_all conv_sized l -> forall c bs c', conv_stack convert_block l c = Ok (bs, c') -> length bs = stack_size block_size l).
  { clear. induction l as [|b l IH]; cbn [stack_all conv_stack stack_size]; intros Q c bs c' H; [now injection H as <- <-|].
    destruct Q as [Q1 Q2]. apply bind_ok in H as ([x c1] & H1 & H). apply bind_ok in H as ([y c2] & H2 & [= <- <-]). rewrite app_length. apply Q1 in H1. apply IH in H2; auto. }
  assert (S' : forall s c z bs c', sub_all conv_sized s -> sub_ptr s c z bs c' -> length bs = sub_size block_size s).
  { intros [[|b l]|] c0 z bs c0'; cbn [sub_all sub_ptr sub_size]; intros K; [now intros (_ & -> & _)| |now intros (_ & -> & _)]. intros (_ & _ & X). eapply S; eauto. }
  assert (V : forall T (f : T -> str) v c p bs c', value_all conv_sized v -> conv_value convert_block f v c = Ok (p, bs, c') -> length bs = value_size block_size v).
  { clear. intros T f [t|b|i|] c p bs c'; cbn [value_all conv_value value_size]; intros Q H; try discriminate; try (now injection H as <- <- <-).
    apply bind_ok in H as ([bs0 c0] & H & [= <- <- <-]). eapply Q; eauto. }
  rewrite (S' _ _ _ _ _ Q1 H1), (S' _ _ _ _ _ Q2 H2), Nat.add_assoc. do 2 f_equal. clear - Q V Ha. revert ps ba c1 Ha. generalize (c + 1).
  induction items as [|[t|a] items IH]; cbn [items_all conv_args items_size] in *; intros c0 ps ba c1 Ha.
  - now injection Ha as <- <- <-.
  - cbn [item_size]. eapply IH; eauto. apply Q.
  - destruct Q as [Qa Q]. apply bind_ok in Ha as ([[p x] c2] & Ha & H). apply bind_ok in H as ([[ps' y] c3] & H & [= <- <- <-]).
    rewrite app_length. apply IH in H; auto. rewrite H. f_equal.
    destruct a as [n v|n v|n v|n v]; cbn [item_all conv_arg item_size] in *; try (eapply V; eauto; fail).
    destruct v as [t|b|i|]; try (eapply (V _ _ _ _ _ _ _ Qa Ha)). now injection Ha as <- <- <-.
Qed.
Lemma stack_sized l c bs c' : conv_stack convert_block l c = Ok (bs, c') -> length bs = blocks_size l.
Proof.
  revert c bs c'. induction l as [|b l IH]; cbn [conv_stack]; intros c bs c' H; [now injection H as <- <-|].
  apply bind_ok in H as ([x c1] & H1 & H). apply bind_ok in H as ([y c2] & H2 & [= <- <-]). rewrite app_length. apply all_sized in H1. apply IH in H2. unfold blocks_size in *. cbn [stack_size]. lia.
Qed.
Lemma into_sized l c : blocks_into l = Ok c -> length c = blocks_size l.
Proof. intros H. apply into_stack in H. now apply stack_sized in H. Qed.
Definition conv_total (b : ablock) : Prop :=
  forall c last, no_holes b -> c + N.of_nat (block_size b) < 2 ^ 31 -> exists bs, convert_block b c last = Ok (bs, c + N.of_nat (block_size b)).
Lemma stack_total l : stack_all conv_total l -> forall c, stack_all no_holes l -> c + N.of_nat (blocks_size l) < 2 ^ 31 ->
  exists bs, conv_stack convert_block l c = Ok (bs, c + N.of_nat (blocks_size l)).
Proof.
  unfold blocks_size. induction l as [|b l IH]; cbn [stack_all conv_stack stack_size]; intros Q c N L.
  - exists []. now rewrite N.add_0_r.
  - destruct Q as [Q1 Q], N as [N1 N]. destruct (Q1 c (match l with [] => true | _ => false end) N1) as [x Hx]; [lia|]. rewrite Hx. cbn [bind].
    destruct (IH Q (c + N.of_nat (block_size b)) N) as [y Hy]; [lia|]. rewrite Hy. cbn [bind]. exists (x ++ y). do 2 f_equal. lia.
Qed.
Lemma all_total b : conv_total b.
Proof.
  induction b as [s1 s2 col op items ty Q1 Q2 Q] using ablock_induct. intros c last N L. cbn [no_holes] in N. destruct N as (Nh & Ni & N1 & N2).
  cbn [block_size] in L |- *. cbn [convert_block].
  assert (A : exists ps ba, conv_args convert_block items (c + 1) = Ok (ps, ba, c + 1 + N.of_nat (items_size block_size items))).
  { assert (L' : (c + 1) + N.of_nat (items_size block_size items) < 2 ^ 31) by lia. clear L. revert L'. generalize (c + 1). clear c.
    induction items as [|[t|a] items IH]; cbn [items_all items_size conv_args] in *; intros c L.
    - exists [], []. now rewrite N.add_0_r.
    - inversion Nh; subst. cbn [item_size] in *. destruct (IH (proj2 Q) H2 (proj2 Ni) c L) as (ps & ba & ->). eauto.
    - destruct Q as [Qa Q], Ni as [Na Ni]. inversion Nh as [|? ? Hh Nh']; subst.
      assert (V : forall T (f : T -> str) v, value_all conv_total v -> value_all no_holes v -> ~ hole v -> c + N.of_nat (value_size block_size v) < 2 ^ 31 ->
        exists p bs, conv_value convert_block f v c = Ok (p, bs, c + N.of_nat (value_size block_size v))).
      { intros T f [t|b|i|]; cbn [value_all hole value_size conv_value]; intros Qv Nv Hv Lv; try tauto; try (do 2 eexists; rewrite N.add_0_r; reflexivity).
        destruct (Qv c true Nv Lv) as [bs ->]. cbn [bind]. eauto. }
      assert (C : exists p bs, conv_arg convert_block a c = Ok (p, bs, c + N.of_nat (item_size block_size (SParam a)))).
      { destruct a as [n v|n v|n v|n v]; cbn [item_all conv_arg item_size has_hole] in *; try (apply V; auto; lia).
        destruct v as [t|b|i|]; [do 2 eexists; reflexivity| | |]; apply V; auto; lia. }
      destruct C as (p & bs & ->). cbn [bind]. destruct (IH Q Nh' Ni (c + N.of_nat (item_size block_size (SParam a)))) as (ps & ba & ->); [lia|].
      cbn [bind]. exists (p :: ps), (bs ++ ba). do 2 f_equal. lia. }
  destruct A as (ps & ba & ->). cbn [bind].
  assert (S : forall s c, sub_all conv_total s -> sub_all no_holes s -> c + N.of_nat (sub_size block_size s) < 2 ^ 31 ->
    exists z bs, conv_sub convert_block s c = Ok (z, bs, c + N.of_nat (sub_size block_size s))).
  { clear. intros [l|] c; cbn [sub_all sub_size conv_sub]; intros Q N L; [|do 2 eexists; now rewrite N.add_0_r].
    destruct (stack_total l Q c N L) as [bs Hb]. rewrite Hb. cbn [bind].
    destruct (conv_stack_numbered l (stack_all_intro _ _ all_numbered) _ _ _ Hb) as [Hn He].
    destruct bs as [|b bs]; [cbn [last_id rev bind]|].
    - rewrite (proj1 He eq_refl). cbn. do 2 eexists. now rewrite N.add_0_r.
    - destruct (numbered_last _ _ _ Hn) as (pre & pb & E & I); [discriminate|]. unfold last_id. rewrite E, rev_app_distr. cbn [rev app]. rewrite I.
      assert (P : parse_i32 (dec_of_N (c + N.of_nat (blocks_size l))) = Some (Z.of_N (c + N.of_nat (blocks_size l)))).
      { pose proof (parse_int_dec 2147483648 I32MAX (Z.of_N (c + N.of_nat (blocks_size l)))) as X.
        destruct (c + N.of_nat (blocks_size l)) as [|p] eqn:Ep; [reflexivity|]. apply X. unfold blocks_size, I32MAX in *. lia. }
      rewrite P. cbn [unwrap bind]. do 2 eexists. replace (Z.of_N (c + N.of_nat (blocks_size l)) =? -1)%Z with false by lia.
      rewrite u32_of_i32_nat by (unfold blocks_size; lia). reflexivity. }
  destruct (S s1 (c + 1 + N.of_nat (items_size block_size items)) Q1 N1) as (z1 & b1 & ->); [lia|]. cbn [bind].
  destruct (S s2 (c + 1 + N.of_nat (items_size block_size items) + N.of_nat (sub_size block_size s1)) Q2 N2) as (z2 & b2 & ->); [lia|]. cbn [bind].
  eexists. do 2 f_equal. lia.
Qed.
Definition conv_holes (b : ablock) : Prop := forall c last bs c', convert_block b c last = Ok (bs, c') -> no_holes b.
Lemma stack_holes l : stack_all conv_holes l -> forall c bs c', conv_stack convert_block l c = Ok (bs, c') -> stack_all no_holes l.
Proof.
  induction l as [|b l IH]; cbn [stack_all conv_stack]; intros Q c bs c' H; auto. destruct Q as [Q1 Q].
  apply bind_ok in H as ([x c1] & H1 & H). apply bind_ok in H as ([y c2] & H2 & _). split; [eapply Q1; eauto|eapply IH; eauto].
Qed.
Lemma all_holes b : conv_holes b.
Proof.
  induction b as [s1 s2 col op items ty Q1 Q2 Q] using ablock_induct. intros c last bs c' H. apply convert_block_inv in H as (ps & ba & c1 & z1 & b1 & c2 & z2 & b2 & Ha & H1 & H2 & ->).
  cbn [ab_content ab_sub_stack1 ab_sub_stack2] in *. cbn [no_holes].
  assert (S : forall s c z bs c', sub_all conv_holes s -> sub_ptr s c z bs c' -> sub_all no_holes s).
  { clear. intros [[|b l]|] c z bs c' Q H; cbn [sub_all sub_ptr] in *; [exact I| |exact I]. eapply (stack_holes (b :: l)); eauto. apply H. }
  assert (V : forall T (f : T -> str) v c p bs c', value_all conv_holes v -> conv_value convert_block f v c = Ok (p, bs, c') -> value_all no_holes v /\ ~ hole v).
  { clear. intros T f [t|b|i|] c p bs c'; cbn [value_all conv_value hole]; intros Q H; try discriminate; auto.
    apply bind_ok in H as ([bs0 c0] & H & _). split; [eapply Q; eauto|auto]. }
  assert (A : Forall (fun i => ~ has_hole i) items /\ items_all no_holes items).
  { clear - Q V Ha. revert ps ba c1 Ha. generalize (c + 1). induction items as [|[t|a] items IH]; cbn [items_all conv_args] in *; intros c0 ps ba c1 Ha.
    - auto.
    - destruct (IH (proj2 Q) _ _ _ _ Ha). cbn. auto.
    - destruct Q as [Qa Q]. apply bind_ok in Ha as ([[p x] c2] & Ha & H). apply bind_ok in H as ([[ps' y] c3] & H & _).
      destruct (IH Q _ _ _ _ H) as [I1 I2].
      assert (X : item_all no_holes (SParam a) /\ ~ has_hole (SParam a)).
      { destruct a as [n v|n v|n v|n v]; cbn [item_all conv_arg has_hole] in *; try (eapply V; eauto; fail).
        destruct v as [t|b|i|]; [split; [exact I|tauto]| | |]; eapply V; eauto. }
      destruct X. auto. }
  destruct A. repeat split; auto; eapply S; eauto.
Qed.
Lemma into_total l : 9 + N.of_nat (blocks_size l) < 2 ^ 31 -> (exists c, blocks_into l = Ok c) <-> Forall no_holes l.
Proof.
  intros L. assert (E : stack_all no_holes l <-> Forall no_holes l).
  { clear. induction l as [|b l IH]; cbn; split; intros H; auto; [destruct H; constructor; tauto|inversion H; tauto]. }
  rewrite <- E. split.
  - intros [c H]. apply into_stack in H. eapply stack_holes; [apply stack_all_intro, all_holes|eauto].
  - intros H. destruct (stack_total l (stack_all_intro _ _ all_total) 9 H L) as [bs Hb]. exists bs. unfold blocks_into, to_block_container.
    change (10 - 1) with 9. now rewrite Hb.
Qed.

(** ** The chain of top-level blocks *)
Lemma map_item_spec items : map item_spec (fst (take_args items)) = map (@item_spec ablock) items.
Proof. unfold take_args. cbn [fst]. rewrite map_map. apply map_ext. intros [t|[n v|n v|n v|n v]]; reflexivity. Qed.
Lemma conv_args_length items c ps bs c' : conv_args convert_block items c = Ok (ps, bs, c') -> length ps = length (get_args items).
Proof.
  revert c ps bs c'. induction items as [|[t|a] items IH]; cbn [conv_args]; intros c ps bs c' H.
  - now injection H as <- <- <-.
  - unfold get_args. cbn [flat_map app]. eapply IH; eauto.
  - apply bind_ok in H as ([[p x] c2] & _ & H). apply bind_ok in H as ([[ps' y] c3] & H & [= <- <- <-]). unfold get_args. cbn [flat_map app length]. f_equal. eapply IH; eauto.
Qed.
Lemma chain_sub c c' z r : incl c c' -> chain c z r -> chain c' z r.
Proof. intros I H. induction H; econstructor; eauto. Qed.
Lemma stack_chain l c bs c' : conv_stack convert_block l c = Ok (bs, c') -> c' < 2 ^ 31 ->
  exists tops, Forall2 raw_of l tops /\ chain bs (match l with [] => -1 | _ => Z.of_N (c + 1) end) tops.
Proof.
  revert c bs. induction l as [|b l IH]; cbn [conv_stack]; intros c bs H L.
  - exists []. split; constructor.
  - apply bind_ok in H as ([x c1] & H1 & H). apply bind_ok in H as ([y c2] & H2 & [= <- <-]).
    destruct (IH _ _ H2 L) as (tops & F & C). pose proof (all_numbered _ _ _ _ _ H1) as [[Ex _] _].
    pose proof (conv_stack_numbered l (stack_all_intro _ _ all_numbered) _ _ _ H2) as [[Ey _] _].
    apply convert_block_inv in H1 as (ps & ba & ca & z1 & b1 & cb & z2 & b2 & Ha & _ & _ & ->).
    match type of Ex with context [length (?q :: _)] => exists (q :: tops) end. split.
    + constructor; auto. unfold raw_of, raw. cbn [bl_color bl_op_code bl_spec bl_type bl_parameters]. repeat split; auto.
      * now rewrite content_to_string_join, map_item_spec.
      * eapply conv_args_length; eauto.
    + apply chain_step; [now left|lia|cbn [raw bl_id]; f_equal; lia|]. cbn [raw bl_next_block].
      apply (chain_sub y); [intros q Hq; apply in_app_iff; now right|]. destruct l as [|b' l]; [exact C|].
      replace (i32_of_u32 (c1 + 1)) with (Z.of_N (c1 + 1)); [exact C|]. unfold i32_of_u32.
      assert (1 <= length y)%nat.
      { apply stack_sized in H2. rewrite H2. destruct b'. cbn. lia. }
      destruct (N.ltb_spec (c1 + 1) 2147483648); lia.
Qed.
Lemma chain_fun c z r r' : NoDup (map bl_id c) -> chain c z r -> chain c z r' -> r = r'.
Proof.
  intros N H. revert r'. induction H as [|z b r I Z B H IH]; intros r' H'; inversion H' as [|z' b' r'' I' Z' B' H'' E']; subst; auto; try lia.
  assert (b' = b).
  { rewrite <- B in B'. apply In_nth_error in I as [i I]. apply In_nth_error in I' as [j J].
    assert (i = j). { apply (proj1 (NoDup_nth_error _) N); [rewrite map_length; apply nth_error_Some; congruence|]. rewrite !nth_error_map, I, J. cbn. congruence. }
    subst. congruence. }
  subst. f_equal. auto.
Qed.
Lemma numbered_nodup c bs c' : numbered c bs c' -> NoDup (map bl_id bs).
Proof.
  intros [_ H]. apply NoDup_nth_error. intros i j L E. rewrite map_length in L. rewrite !nth_error_map in E. destruct (nth_error bs i) as [x|] eqn:X; [|apply nth_error_None in X; lia].
  destruct (nth_error bs j) as [y|] eqn:Y; [|discriminate]. cbn in E. injection E as E. rewrite (H _ _ X), (H _ _ Y) in E. apply dec_of_N_inj in E. lia.
Qed.
