(** Which trees come back after being written as raw blocks ([A_Block.v]). *)
From Verif Require Import Base Spec Str Dec Flt FltProofs FltCanon SpecNumber NumberStdProofs M_Color ColorProofs M_Logic A_Block SpecBlock LogicMapProofs BlockContentProofs BlockProofs BlockReadProofs
  BlockWriteProofs.
From Coq Require Import ZifyNat ZifyN ZifyBool.

Local Ltac some_lia := let K := fresh in intros K; apply (f_equal (fun o : option N => match o with Some n => n | None => 0 end)) in K; lia.
(** ** Raw blocks in the graph *)
Definition emb (G : N -> block -> Prop) (c : N) (bs : list block) : Prop := forall i pb, nth_error bs i = Some pb -> G (c + 1 + N.of_nat i) pb.
Lemma emb_app G c x c1 y : emb G c (x ++ y) -> c1 = c + N.of_nat (length x) -> emb G c x /\ emb G c1 y.
Proof.
  intros H ->. split; intros i pb E.
  - apply H. rewrite nth_error_app1; auto. apply nth_error_Some. congruence.
  - replace (c + N.of_nat (length x) + 1 + N.of_nat i) with (c + 1 + N.of_nat (length x + i)) by lia. apply H. rewrite nth_error_app2 by lia.
    rewrite <- E. f_equal. lia.
Qed.
Lemma emb_head G c pb bs : emb G c (pb :: bs) -> G (c + 1) pb /\ emb G (c + 1) bs.
Proof.
  intros H. split; [specialize (H 0%nat pb eq_refl); now rewrite N.add_0_r in H|].
  intros i q E. replace (c + 1 + 1 + N.of_nat i) with (c + 1 + N.of_nat (S i)) by lia. now apply H.
Qed.
Lemma emb_last G c pre pb c' : emb G c (pre ++ [pb]) -> c' = c + N.of_nat (length (pre ++ [pb])) -> G c' pb.
Proof.
  intros H ->. rewrite app_length. cbn [length]. replace (c + N.of_nat (length pre + 1)) with (c + 1 + N.of_nat (length pre)) by lia. apply H.
  rewrite nth_error_app2, Nat.sub_diag by lia. reflexivity.
Qed.
Lemma graph_numbered c c' : numbered 9 c c' -> c' < 2 ^ 31 -> forall id pb, graph c id pb <-> exists i, nth_error c i = Some pb /\ id = 9 + 1 + N.of_nat i.
Proof.
  intros [-> H] L id pb.
  assert (P : forall i q, nth_error c i = Some q -> parse_u32 (bl_id q) = Some (9 + 1 + N.of_nat i)).
  { intros i q E. rewrite (H _ _ E). apply parse_u32_dec. assert (i < length c)%nat by (apply nth_error_Some; congruence). unfold U32MAX. lia. }
  split.
  - intros (a & r & -> & E & _). exists (length a). assert (X : nth_error (a ++ pb :: r) (length a) = Some pb) by (rewrite nth_error_app2, Nat.sub_diag by lia; reflexivity).
    split; auto. apply P in X. congruence.
  - intros (i & E & ->). apply nth_error_split in E as X. destruct X as (a & r & -> & La). exists a, r. split; [reflexivity|]. split; [now apply P|].
    apply Forall_forall. intros q Q. apply In_nth_error in Q as [j J].
    rewrite (P (length a + S j)%nat q); [some_lia|]. rewrite nth_error_app2 by lia. replace (length a + S j - length a)%nat with (S j) by lia. exact J.
Qed.
Lemma graph_emb c c' : numbered 9 c c' -> c' < 2 ^ 31 -> emb (graph c) 9 c.
Proof. intros H L i pb E. apply (graph_numbered c c' H L). eauto. Qed.
Lemma graph_fun c : forall id x y, graph c id x -> graph c id y -> x = y.
Proof.
  intros id x y (a & r & -> & Ex & Fx) (a' & r' & E & Ey & Fy).
  revert a' E. induction a as [|z a IH]; intros [|z' a'] E; cbn [app] in E.
  - congruence.
  - injection E as <- ->. exfalso. rewrite Forall_forall in Fx. apply (Fx y); [apply in_app_iff; right; now left|auto].
  - injection E as -> <-. exfalso. rewrite Forall_forall in Fy. apply (Fy x); [apply in_app_iff; right; now left|auto].
  - injection E as _ E. now apply (IH a').
Qed.
Lemma start_numbered c c' : numbered 9 c c' -> c' < 2 ^ 31 -> c <> [] -> forall id, start c id <-> id = 10.
Proof.
  intros [-> H] L Hc.
  assert (P : forall i q, nth_error c i = Some q -> parse_u32 (bl_id q) = Some (9 + 1 + N.of_nat i)).
  { intros i q E. rewrite (H _ _ E). apply parse_u32_dec. assert (i < length c)%nat by (apply nth_error_Some; congruence). unfold U32MAX. lia. }
  intros id. split.
  - intros (a & pb & r & E & Ep & Fr & S). destruct a as [|x a].
    + rewrite E in P. specialize (P 0%nat pb eq_refl). rewrite P in Ep. injection Ep as <-. reflexivity.
    + exfalso. destruct (S [] x a eq_refl) as (y & Iy & Ey). apply In_nth_error in Iy as [j J].
      rewrite (P 0%nat x), (P (Datatypes.S j) y) in Ey; [revert Ey; some_lia| |]; rewrite E; [exact J|reflexivity].
  - intros ->. destruct c as [|pb r]; [congruence|]. exists [], pb, r. split; [reflexivity|]. split; [now rewrite (P 0%nat pb eq_refl)|].
    split; [|intros [|? ?] x a2; discriminate]. apply Forall_forall. intros q Q. apply In_nth_error in Q as [j J]. rewrite (P (Datatypes.S j) q J). some_lia.
Qed.

(** ** Specs *)
Lemma param_spec (a : argument ablock) : name_ok (arg_name a) ->
  ~ In 32 (arg_spec a) /\
  match a with
  | ArgString n _ => param_word (arg_spec a) "s" n
  | ArgNumber n _ => param_word (arg_spec a) "d" n
  | ArgBoolean n _ => param_word (arg_spec a) "b" n
  | ArgMenu n _ => param_word (arg_spec a) "m" (Some n)
  end.
Proof.
  assert (W : forall l c n, lit l = [c] -> name_ok n -> param_word (37 :: c :: match n with Some x => 46 :: x | None => [] end) l n).
  { intros l c n E N. eexists. split; [rewrite E; reflexivity|]. destruct n as [x|]; [split; [apply N|reflexivity]|discriminate]. }
  assert (S : forall c n, c <> 32 -> name_ok n -> ~ In 32 (37 :: c :: match n with Some x => 46 :: x | None => [] end)).
  { intros c n Hc N [X|[X|X]]; [discriminate|congruence|]. destruct n as [x|]; [|destruct X]. destruct X as [X|X]; [discriminate|]. now destruct N. }
  destruct a as [n v|n v|n v|n v]; cbn [arg_name]; intros N; (split; [|]).
  1: now apply (S 115 n). 1: now apply (W "s"%string 115 n eq_refl). 1: now apply (S 100 n). 1: now apply (W "d"%string 100 n eq_refl).
  1: now apply (S 98 n). 1: now apply (W "b"%string 98 n eq_refl). 1: now apply (S 109 (Some n)). now apply (W "m"%string 109 (Some n) eq_refl).
Qed.
Definition item_named (i : spec_item ablock) : Prop := match i with SText t => text_ok t | SParam a => name_ok (arg_name a) end.
Lemma raw_words b id next ps z1 z2 : ab_content b <> [] -> Forall item_named (ab_content b) ->
  forall ws, words (bl_spec (raw b id next ps z1 z2)) ws <-> ws = map item_spec (ab_content b).
Proof.
  intros Hn F ws. cbn [raw bl_spec]. rewrite content_to_string_join, map_item_spec, words_split. change CH_SPACE with 32.
  rewrite split_join; [tauto| |].
  - intros E. apply map_eq_nil in E. tauto.
  - apply Forall_map. eapply Forall_impl; [|exact F]. intros [t|a]; cbn [item_named item_spec]; [intros [X _]; exact X|]. intros N. now apply param_spec.
Qed.
Lemma gives_fun ts args (x y : list (spec_item ablock)) : gives ts args x -> gives ts args y -> x = y.
Proof. intros A B. apply items_parse_iff in A, B. congruence. Qed.
Lemma type_back ty : not_list ty -> block_type_from (block_type_to_string ty) (match get_typename ty with Some n => n | None => [] end) = Ok ty.
Proof. destruct ty as [|[]|[]]; cbn [not_list]; intros H; try reflexivity. destruct H. Qed.
Lemma type_back_inv ty t : block_type_from (block_type_to_string ty) (match get_typename ty with Some n => n | None => [] end) = Ok t -> not_list ty /\ t = ty.
Proof.
  intros H. assert (D : not_list ty \/ exists i, ty = TArgument (RList i)) by (destruct ty as [|[]|[]]; cbn; eauto).
  destruct D as [D|[i ->]]; [|discriminate]. split; auto. apply type_back in D. congruence.
Qed.

(** ** What a reading can contain *)
Section Wf.
  Context (f : ablock -> Prop).
  Definition wf_item (i : spec_item ablock) : Prop :=
    match i with
    | SText t => text_ok t
    | SParam a => name_ok (arg_name a) /\
      match a with
      | ArgString _ (AValue s) => forall r, s <> 64 :: r
      | ArgString _ (ABlock b) => f b
      | ArgNumber _ (AValue x) => canonical F64 x = true
      | ArgNumber _ (ABlock b) => f b
      | ArgBoolean _ (AValue _) => True
      | ArgBoolean _ (ABlock b) => f b /\ ab_op_code b <> lit "true" /\ ab_op_code b <> lit "false"
      | ArgMenu _ (AValue _) => True
      | _ => False
      end
    end.
  Fixpoint wf_items (l : list (spec_item ablock)) : Prop := match l with [] => True | i :: r => wf_item i /\ wf_items r end.
  Definition wf_sub (s : option (list ablock)) : Prop := match s with None => True | Some l => l <> [] /\ stack_all f l end.
End Wf.
Fixpoint wf (b : ablock) : Prop :=
  match b with MkBlock s1 s2 _ _ items _ => wf_sub wf s1 /\ wf_sub wf s2 /\ items <> [] /\ wf_items wf items end.
Lemma wf_parts b : wf b <-> wf_sub wf (ab_sub_stack1 b) /\ wf_sub wf (ab_sub_stack2 b) /\ ab_content b <> [] /\ wf_items wf (ab_content b).
Proof. destruct b; reflexivity. Qed.
Lemma wf_items_named f l : wf_items f l -> Forall item_named l.
Proof. induction l as [|[t|a] l IH]; cbn [wf_items wf_item]; intros H; constructor; try tauto; cbn; tauto. Qed.
(** the items that a raw block gives before its references are followed *)
Definition hole_ok (i : spec_item ablock) : Prop :=
  match i with
  | SText t => text_ok t
  | SParam a => name_ok (arg_name a) /\
    match a with
    | ArgString _ (AValue s) => forall r, s <> 64 :: r
    | ArgNumber _ (AValue x) => canonical F64 x = true
    | _ => True
    end
  end.
Lemma gives_holes ts args (is : list (spec_item ablock)) : gives ts args is -> Forall (fun t => ~ In 32 t) ts -> Forall hole_ok is.
Proof.
  assert (N : forall t l n, param_word t l n -> ~ In 32 t -> name_ok n).
  { intros t l n (r & -> & H) S. destruct n as [x|]; cbn; auto. destruct H as [H ->]. split; auto. intros I. apply S. right. apply in_app_iff. right. now right. }
  intros H. induction H as [args|t ts args is P H IH|t n a v ts args is P R H IH|t n a v ts args is P R H IH|t n a v ts args is P R H IH|t n a ts args is P H IH];
    intros F; [constructor|..]; inversion F as [|? ? Ht Ft]; subst; constructor; auto; cbn [hole_ok arg_name].
  - split; auto.
  - split; [eapply N; eauto|]. destruct v; auto. cbn [reads_as] in R. destruct R as [R1 ->]. exact R1.
  - split; [eapply N; eauto|]. destruct v; auto.
  - split; [eapply N; eauto|]. destruct v as [x|b|i|]; auto. cbn [reads_as] in R. destruct R as [_ R]. now apply parse_f64_text, parse_f64_canonical in R.
  - split; [|auto]. eapply (N t "m"%string (Some n)); eauto.
Qed.
Lemma reads_wf G :
  (forall id b u, reads_block G id b u -> wf b) /\
  (forall z s u, reads_sub G z s u -> wf_sub wf s) /\
  (forall id l u, reads_stack G id l u -> l <> [] /\ stack_all wf l) /\
  (forall h i u, reads_items G h i u -> Forall hole_ok h -> wf_items wf i /\ (h = [] <-> i = [])) /\
  (forall a b u, reads_arg G a b u -> hole_ok (SParam a) -> wf_item wf (SParam b)).
Proof.
  apply (reads_ind G (fun id b u _ => wf b) (fun z s u _ => wf_sub wf s) (fun id l u _ => l <> [] /\ stack_all wf l)
    (fun h i u _ => Forall hole_ok h -> wf_items wf i /\ (h = [] <-> i = [])) (fun a b u _ => hole_ok (SParam a) -> wf_item wf (SParam b))).
  - intros id pb ws holes s1 u1 s2 u2 items u3 ty Hg R1 I1 R2 I2 W Gv R3 I3 T. cbn [wf]. split; [auto|split; [auto|]].
    destruct W as (W1 & W2 & _). destruct (I3 (gives_holes _ _ _ Gv W2)) as [Hi He]. split; auto.
    intros E. apply He in E. subst. inversion Gv. subst. congruence.
  - intros; exact I.
  - intros z l u Hz R IH. exact IH.
  - intros id pb b u Hg Hn R IH. cbn. split; [discriminate|auto].
  - intros id pb b u l v Hg Hn R IH R' [_ IH']. split; [discriminate|]. cbn [stack_all]. auto.
  - intros _. cbn. tauto.
  - intros t h i u R IH F. inversion F; subst. destruct (IH H2) as [IH1 _]. split; [|split; discriminate]. split; auto.
  - intros a b v h i u R IHa R' IH F. inversion F; subst. destruct (IH H2) as [IH1 _]. split; [|split; discriminate]. split; auto.
  - intros n t [N H]. split; auto.
  - intros n t [N H]. split; auto.
  - intros n t [N H]. split; auto.
  - intros n t [N H]. split; auto.
  - intros n id b u R IH [N H]. split; auto.
  - intros n id b u R IH [N H]. split; auto.
  - intros n id b u R IH E [N H]. split; auto; exact I.
  - intros n id b u R IH E [N H]. split; auto; exact I.
  - intros n id b u R IH E E' [N H]. split; auto.
Qed.
Lemma reads_count G :
  (forall id b u, reads_block G id b u -> (block_count b <= length u)%nat) /\
  (forall z s u, reads_sub G z s u -> (sub_size block_count s <= length u)%nat) /\
  (forall id l u, reads_stack G id l u -> (blocks_count l <= length u)%nat) /\
  (forall h i u, reads_items G h i u -> (items_count block_count i <= length u)%nat) /\
  (forall a b u, reads_arg G a b u -> (item_count block_count (SParam b) <= length u)%nat).
Proof.
  apply (reads_ind G (fun id b u _ => (block_count b <= length u)%nat) (fun z s u _ => (sub_size block_count s <= length u)%nat)
    (fun id l u _ => (blocks_count l <= length u)%nat) (fun h i u _ => (items_count block_count i <= length u)%nat)
    (fun a b u _ => (item_count block_count (SParam b) <= length u)%nat)).
  all: intros; unfold blocks_count in *; cbn [block_count sub_size item_size stack_size items_count item_count value_size length] in *; rewrite ?app_length; try lia.
Qed.

(** ** The last raw block of a tree is a leaf *)
Definition leaf0 (b : ablock) : Prop :=
  ab_sub_stack1 b = None /\ ab_sub_stack2 b = None /\ ab_content b <> [] /\
  Forall (fun i => match i with SText t => text_ok t | SParam a => name_ok (arg_name a) /\ plain_value a end) (ab_content b).
Definition ends_in_leaf (bs : list block) (c' : N) : Prop :=
  exists y pre pb, bs = pre ++ [pb] /\ leaf0 y /\ 0 < c' /\ convert_block y (c' - 1) true = Ok ([pb], c').
Lemma ends_app x y c' : ends_in_leaf y c' -> ends_in_leaf (x ++ y) c'.
Proof. intros (z & pre & pb & -> & H). exists z, (x ++ pre), pb. now rewrite app_assoc. Qed.
Definition conv_ends (b : ablock) : Prop := wf b -> forall c bs c', convert_block b c true = Ok (bs, c') -> ends_in_leaf bs c'.
Lemma stack_ends l : stack_all conv_ends l -> stack_all wf l -> l <> [] -> forall c bs c', conv_stack convert_block l c = Ok (bs, c') -> ends_in_leaf bs c'.
Proof.
  induction l as [|b l IH]; [congruence|]. cbn [stack_all conv_stack]. intros [Q1 Q] [W1 W] _ c bs c' H.
  apply bind_ok in H as ([x c1] & H1 & H). apply bind_ok in H as ([y c2] & H2 & [= <- <-]). destruct l as [|b' l].
  - cbn in H2. injection H2 as <- <-. rewrite app_nil_r. eapply Q1; eauto.
  - apply ends_app. eapply IH; eauto. discriminate.
Qed.
Lemma all_ends b : conv_ends b.
Proof.
  induction b as [s1 s2 col op items ty Q1 Q2 Q] using ablock_induct. intros (W1 & W2 & Wn & W) c bs c' H.
  pose proof H as H0. apply convert_block_inv in H as (ps & ba & c1 & z1 & b1 & c2 & z2 & b2 & Ha & H1 & H2 & E).
  cbn [ab_content ab_sub_stack1 ab_sub_stack2] in *.
  assert (S : forall s c z bs c', sub_all conv_ends s -> wf_sub wf s -> sub_ptr s c z bs c' -> s <> None -> ends_in_leaf bs c').
  { clear. intros [[|b l]|] c z bs c' Q W H Hn; cbn [sub_all wf_sub sub_ptr] in *; [now destruct W| |congruence].
    eapply (stack_ends (b :: l)); try apply W; try apply H; auto. }
  destruct s2 as [l2|].
  { rewrite E. match goal with |- ends_in_leaf (?x :: ?y ++ ?z ++ ?w) _ => change (x :: y ++ z ++ w) with ([x] ++ (y ++ (z ++ w))) end.
    do 3 apply ends_app. eapply S; eauto. discriminate. }
  cbn [sub_ptr] in H2. destruct H2 as (-> & -> & ->). rewrite app_nil_r in E.
  destruct s1 as [l1|].
  { rewrite E. match goal with |- ends_in_leaf (?x :: ?y ++ ?z) _ => change (x :: y ++ z) with ([x] ++ (y ++ z)) end.
    do 2 apply ends_app. apply (S (Some l1) c1 z1); auto. discriminate. }
  cbn [sub_ptr] in H1. destruct H1 as (-> & -> & ->). rewrite app_nil_r in E.
  assert (A : (ba = [] /\ c1 = c + 1 /\ Forall (fun i => match i with SText t => text_ok t | SParam a => name_ok (arg_name a) /\ plain_value a end) items) \/ ends_in_leaf ba c1).
  { clear - Q W Ha. revert ps ba c1 Ha. generalize (c + 1). induction items as [|[t|a] items IH]; cbn [items_all wf_items wf_item conv_args] in *; intros c0 ps ba c1 Ha.
    - injection Ha as <- <- <-. auto.
    - destruct (IH (proj2 Q) (proj2 W) _ _ _ _ Ha) as [(? & ? & ?)|?]; [left|now right]. split; [auto|split; [auto|]]. constructor; auto. apply W.
    - destruct Q as [Qa Q], W as [[Wn Wa] W]. apply bind_ok in Ha as ([[p x] c2] & Ha & H). apply bind_ok in H as ([[ps' y] c3] & H & [= <- <- <-]).
      destruct (IH Q W _ _ _ _ H) as [(-> & -> & F)|E]; [|right; now apply ends_app]. rewrite app_nil_r.
      assert (V : forall T (f : T -> str) b c p bs c', value_all conv_ends (@ABlock _ T b) -> wf b -> conv_value convert_block f (ABlock b) c = Ok (p, bs, c') -> ends_in_leaf bs c').
      { clear. intros T f b c p bs c' Q W H. cbn [conv_value] in H. apply bind_ok in H as ([bs0 c0] & H & [= <- <- <-]). eapply Q; eauto. }
      assert (K : (x = [] /\ c2 = c0 /\ plain_value a) \/ ends_in_leaf x c2).
      { destruct a as [n v|n v|n v|n v]; cbn [conv_arg item_all plain_value] in *.
        - destruct v as [t|b|i|]; try tauto; [left; injection Ha as <- <- <-; auto|right; eapply V; eauto].
        - destruct v as [t|b|i|]; try tauto; [left; injection Ha as <- <- <-; auto|right; eapply V; eauto].
        - destruct v as [t|b|i|]; try tauto; [right; injection Ha as <- <- <-|right; eapply V; [eauto|apply Wa|eauto]].
          exists (literal_block t), [], (literal_raw t (c0 + 1)). split; [reflexivity|]. split.
          { split; [reflexivity|split; [reflexivity|split; [discriminate|]]]. cbn [literal_block block_new ab_content]. constructor; [|constructor].
            split; [destruct t; intros X; vm_compute in X; intuition discriminate|]. intros [r X]. destruct t; vm_compute in X; discriminate. }
          split; [lia|]. replace (c0 + 1 - 1) with c0 by lia. apply convert_literal.
        - destruct v as [t|b|i|]; try tauto. left; injection Ha as <- <- <-; auto. }
      destruct K as [(-> & -> & K)|K]; [left|now right]. split; [auto|split; [auto|]]. constructor; auto. }
  rewrite E. destruct A as [(-> & -> & F)|A].
  - match goal with |- ends_in_leaf [?x] _ => exists (MkBlock None None col op items ty), [], x end. split; [reflexivity|]. split; [split; auto|]. split; [lia|].
    replace (c + 1 - 1) with c by lia. rewrite H0, E. reflexivity.
  - match goal with |- ends_in_leaf (?x :: ?y) _ => change (x :: y) with ([x] ++ y) end. now apply ends_app.
Qed.

(** ** Leaves *)
Definition plain_leaf_item (i : spec_item ablock) : Prop :=
  match i with SText t => text_ok t | SParam a => name_ok (arg_name a) /\ plain_value a end.
Lemma plain_named l : Forall plain_leaf_item l -> Forall item_named l.
Proof. apply Forall_impl. intros [t|a]; cbn; tauto. Qed.
Lemma reads_at_none {B T} (f : str -> T -> Prop) a t : (forall r, a <> 64 :: r) -> f a t -> @reads_as B T f a (AValue t).
Proof. intros H E. split; auto. Qed.
Lemma display_f64_at x : canonical F64 x = true -> forall r, display_f64 x <> 64 :: r.
Proof.
  intros C r E. pose proof (parse_display_f64 x C) as P. rewrite E in P. revert P. unfold parse_f64, parse_float. discriminate.
Qed.
Lemma plain_args items : Forall plain_leaf_item items -> forall c ps bs c', conv_args convert_block items c = Ok (ps, bs, c') ->
  bs = [] /\ c' = c /\ gives (map item_spec items) ps items.
Proof.
  intros F. induction F as [|[t|a] items Hi F IH]; cbn [conv_args map item_spec]; intros c ps bs c' H.
  - injection H as <- <- <-. split; [auto|split; [auto|constructor]].
  - destruct (IH _ _ _ _ H) as (-> & -> & X). split; [auto|split; [auto|]]. constructor; auto. apply Hi.
  - destruct Hi as [N P]. apply bind_ok in H as ([[p x] c1] & Ha & H). apply bind_ok in H as ([[ps' y] c2] & H & [= <- <- <-]).
    destruct (IH _ _ _ _ H) as (-> & -> & X). pose proof (proj2 (param_spec a N)) as W.
    destruct a as [n v|n v|n v|n v]; cbn [plain_value conv_arg] in *; destruct v as [t|b|i|]; try tauto; injection Ha as <- <- <-; split; auto; split; auto.
    + constructor; auto. now apply reads_at_none.
    + apply gives_number; auto. apply reads_at_none; [now apply display_f64_at|now apply parse_f64_text, parse_display_f64].
    + constructor; auto.
Qed.
Lemma plain_reads G items : Forall plain_leaf_item items -> reads_items G items items [].
Proof.
  intros F. induction F as [|[t|a] items Hi F IH]; [constructor|now constructor|].
  change (@nil N) with (@nil N ++ []). constructor; auto. destruct Hi as [_ P]. destruct a as [n v|n v|n v|n v]; cbn [plain_value] in P; destruct v; try tauto; constructor.
Qed.
Lemma plain_reads_inv G items i u : Forall plain_leaf_item items -> reads_items G items i u -> i = items.
Proof.
  intros F. revert i u. induction F as [|[t|a] items Hi F IH]; intros i u R; inversion R; subst; auto.
  - f_equal. eauto.
  - destruct Hi as [_ P]. f_equal; [|eauto]. f_equal.
    match goal with X : reads_arg _ _ _ _ |- _ => inversion X; subst; auto; cbn in P; tauto end.
Qed.
Lemma leaf0_conv y c last bs c' : leaf0 y -> convert_block y c last = Ok (bs, c') ->
  exists ps, bs = [raw y (c + 1) (if last then (-1)%Z else i32_of_u32 (c + 1 + 1)) ps (-1) (-1)] /\ c' = c + 1 /\ gives (map item_spec (ab_content y)) ps (ab_content y).
Proof.
  intros (S1 & S2 & Hn & F) H. apply convert_block_inv in H as (ps & ba & c1 & z1 & b1 & c2 & z2 & b2 & Ha & H1 & H2 & ->).
  rewrite S1 in H1. rewrite S2 in H2. cbn [sub_ptr] in *. destruct H1 as (-> & -> & ->), H2 as (-> & -> & ->).
  apply plain_args in Ha as (-> & -> & X); auto. exists ps. auto.
Qed.
Lemma leaf_leaf0 y : leaf y <-> leaf0 y /\ not_list (ab_type y).
Proof. unfold leaf, leaf0. tauto. Qed.
Lemma leaf_reads G y c last bs c' : leaf y -> convert_block y c last = Ok (bs, c') -> emb G c bs -> reads_block G (c + 1) y [c + 1].
Proof.
  intros L H E. apply leaf_leaf0 in L as [L T]. destruct (leaf0_conv _ _ _ _ _ L H) as (ps & -> & -> & X). apply emb_head in E as [E _].
  destruct L as (S1 & S2 & Hn & F). destruct y as [s1 s2 col op items ty]. cbn [ab_sub_stack1 ab_sub_stack2 ab_content ab_type] in *. subst s1 s2.
  change [c + 1] with ((c + 1) :: [] ++ [] ++ []).
  eapply (rd_block G (c + 1) _ (map item_spec items) items None [] None [] items [] ty E).
  - constructor. reflexivity.
  - constructor. reflexivity.
  - apply raw_words; auto. apply plain_named, F.
  - exact X.
  - apply plain_reads, F.
  - cbn [raw bl_type bl_type_name ab_type]. now apply type_text_iff, type_back.
Qed.
Lemma leaf_reads_inv (G : N -> block -> Prop) y c pb c' x u : (forall id x y, G id x -> G id y -> x = y) -> leaf0 y ->
  convert_block y c true = Ok ([pb], c') -> G (c + 1) pb -> reads_block G (c + 1) x u -> x = y /\ leaf y.
Proof.
  intros Gf L H E R. destruct (leaf0_conv _ _ _ _ _ L H) as (ps & [= ->] & -> & X). 
  pose proof L as (S1 & S2 & Hn & F).
  inversion R as [id pb ws holes s1 u1 s2 u2 items u3 ty Eg R1 R2 W Gv R3 T]. subst id x u.
  rewrite (Gf _ _ _ Eg E) in *. clear pb Eg. apply raw_words in W; auto; [|apply plain_named, F]. subst ws. cbn [raw bl_parameters bl_sub_stack1 bl_sub_stack2 bl_type bl_type_name bl_color bl_op_code] in *.
  apply (gives_fun _ _ _ _ X) in Gv. subst holes. apply plain_reads_inv in R3; [|exact F]. subst items.
  apply type_text_iff, type_back_inv in T as [T ->]. inversion R1; [|lia]. inversion R2; [|lia]. subst. split; [|now apply leaf_leaf0].
  destruct y as [a b ? ? ? ?]. cbn in *. congruence.
Qed.

(** ** What is kept comes back *)
Definition within (c : N) (u : list N) (c' : N) : Prop := NoDup u /\ forall k, In k u -> c < k <= c'.
Lemma within_nil c c' : within c [] c'.
Proof. split; [constructor|intros ? []]. Qed.
Lemma within_app c u c1 v c2 : c <= c1 -> c1 <= c2 -> within c u c1 -> within c1 v c2 -> within c (u ++ v) c2.
Proof.
  intros L1 L2 [N1 H1] [N2 H2]. split.
  - apply NoDup_app_intro; auto. intros k K1 K2. apply H1 in K1. apply H2 in K2. lia.
  - intros k K. apply in_app_iff in K as [K|K]; [apply H1 in K|apply H2 in K]; lia.
Qed.
Lemma within_wider c u c' d d' : d <= c -> c' <= d' -> within c u c' -> within d u d'.
Proof. intros L1 L2 [N H]. split; auto. intros k K. apply H in K. lia. Qed.
Definition kept_item (i : spec_item ablock) : Prop :=
  match i with SText t => text_ok t | SParam a => name_ok (arg_name a) /\ kept_value a end.
Lemma kept_named l : Forall kept_item l -> Forall item_named l.
Proof. apply Forall_impl. intros [t|a]; cbn; tauto. Qed.
Lemma ref_reads {T B} (f : str -> T -> Prop) c : c < 2 ^ 31 -> @reads_as B T f (lit "@" ++ dec_of_N c) (APlaceholder c).
Proof. intros L. cbn [reads_as]. exists (dec_of_N c). split; [reflexivity|]. apply parse_u32_dec. unfold U32MAX. lia. Qed.
Lemma conv_args_le items c ps bs c' : conv_args convert_block items c = Ok (ps, bs, c') -> numbered c bs c'.
Proof. apply conv_args_numbered, items_all_intro, all_numbered. Qed.
Lemma conv_stack_le l c bs c' : conv_stack convert_block l c = Ok (bs, c') -> numbered c bs c'.
Proof. intros H. now apply (conv_stack_numbered l (stack_all_intro _ _ all_numbered)) in H. Qed.
Lemma conv_arg_le a c ps bs c' : conv_arg convert_block a c = Ok (ps, bs, c') -> numbered c bs c'.
Proof. apply conv_arg_numbered, (item_all_intro _ (SParam a)), all_numbered. Qed.
Lemma sub_ptr_le s c z bs c' : sub_ptr s c z bs c' -> numbered c bs c'.
Proof. apply sub_ptr_numbered, sub_all_intro, all_numbered. Qed.
(** a reference to a leaf *)
Lemma leaf_ref G {T} (f : T -> str) y c p bs c' : leaf y -> conv_value convert_block f (ABlock y) c = Ok (p, bs, c') -> emb G c bs ->
  p = lit "@" ++ dec_of_N c' /\ reads_block G c' y [c'] /\ c' = c + 1.
Proof.
  intros L H E. cbn [conv_value] in H. apply bind_ok in H as ([bs0 c0] & H & [= <- <- <-]). split; [reflexivity|].
  pose proof (leaf_reads _ _ _ _ _ _ L H E) as R. apply leaf_leaf0 in L as [L _]. destruct (leaf0_conv _ _ _ _ _ L H) as (ps & _ & -> & _). auto.
Qed.
Lemma within_one c : within c [c + 1] (c + 1).
Proof. split; [constructor; [intros []|constructor]|]. intros k [<-|[]]. lia. Qed.
Lemma literal_leaf v : leaf (literal_block v).
Proof.
  split; [reflexivity|split; [reflexivity|split; [exact I|split; [discriminate|]]]]. cbn [literal_block block_new ab_content]. constructor; [|constructor].
  split; [destruct v; intros X; vm_compute in X; intuition discriminate|]. intros [r X]. destruct v; vm_compute in X; discriminate.
Qed.
Lemma kept_args G items : Forall kept_item items -> forall c ps bs c', conv_args convert_block items c = Ok (ps, bs, c') -> emb G c bs -> c' < 2 ^ 31 ->
  exists holes u, gives (map item_spec items) ps holes /\ reads_items G holes items u /\ within c u c'.
Proof.
  intros F. induction F as [|[t|a] items Hi F IH]; cbn [conv_args map item_spec]; intros c ps bs c' H E L.
  - injection H as <- <- <-. exists [], []. split; [constructor|split; [constructor|apply within_nil]].
  - destruct (IH _ _ _ _ H E L) as (holes & u & Gv & R & W). exists (SText t :: holes), u. split; [constructor; auto; apply Hi|]. split; [now constructor|auto].
  - destruct Hi as [N K]. apply bind_ok in H as ([[p x] c1] & Ha & H). apply bind_ok in H as ([[ps' y] c2] & H & [= <- <- <-]).
    pose proof (conv_args_le _ _ _ _ _ H) as [L2 _]. pose proof (conv_arg_le _ _ _ _ _ Ha) as [L1 _].
    apply (emb_app G c x c1 y) in E as [Ex Ey]; [|lia]. destruct (IH _ _ _ _ H Ey L) as (holes & u & Gv & R & W).
    pose proof (proj2 (param_spec a N)) as Wd.
    assert (V : exists h v, reads_arg G h a v /\ within c v c1 /\ gives (arg_spec a :: map item_spec items) (p :: ps') (SParam h :: holes)).
    { destruct a as [n v|n v|n v|n v]; cbn [kept_value conv_arg] in *.
      - destruct v as [t|b|i|]; cbn [plain_value] in K; try tauto.
        + injection Ha as <- <- <-. exists (ArgString n (AValue t)), []. split; [constructor|]. split; [apply within_nil|]. constructor; auto. now apply reads_at_none.
        + apply (leaf_ref G) in Ha as (-> & Rb & ->); auto. exists (ArgString n (APlaceholder (c + 1))), [c + 1]. split; [now constructor|].
          split; [apply within_one|]. constructor; auto. apply ref_reads. lia.
      - destruct v as [t|b|i|]; cbn [plain_value] in K; try tauto.
        + injection Ha as <- <- <-. exists (ArgNumber n (AValue t)), []. split; [constructor|]. split; [apply within_nil|].
          constructor; auto. apply reads_at_none; [now apply display_f64_at|now apply parse_f64_text, parse_display_f64].
        + apply (leaf_ref G) in Ha as (-> & Rb & ->); auto. exists (ArgNumber n (APlaceholder (c + 1))), [c + 1]. split; [now constructor|].
          split; [apply within_one|]. constructor; auto. apply ref_reads. lia.
      - destruct v as [t|b|i|]; cbn [plain_value] in K; try tauto.
        + injection Ha as <- <- <-. exists (ArgBoolean n (APlaceholder (c + 1))), [c + 1].
          pose proof (leaf_reads G _ _ _ _ _ (literal_leaf t) (convert_literal t c) Ex) as Rb.
          split; [destruct t; [now apply (rd_true G n _ (literal_block true))|now apply (rd_false G n _ (literal_block false))]|].
          split; [apply within_one|]. constructor; auto. apply ref_reads. lia.
        + destruct K as (K & K1 & K2). apply (leaf_ref G) in Ha as (-> & Rb & ->); auto. exists (ArgBoolean n (APlaceholder (c + 1))), [c + 1]. split; [now constructor|].
          split; [apply within_one|]. constructor; auto. apply ref_reads. lia.
      - destruct v as [t|b|i|]; cbn [plain_value] in K; try tauto. injection Ha as <- <- <-. exists (ArgMenu n (AValue t)), []. split; [constructor|]. split; [apply within_nil|]. now constructor. }
    destruct V as (h & v & Ra & Wv & Gh). exists (SParam h :: holes), (v ++ u). split; [exact Gh|]. split; [now constructor|]. eapply within_app; [| |eauto|eauto]; lia.
Qed.
Lemma kept_sub G s c z bs c' : kept_stack s -> sub_ptr s c z bs c' -> emb G c bs -> exists u, reads_sub G z s u /\ within c u c'.
Proof.
  intros [->|(y & -> & Ly)]; cbn [sub_ptr].
  - intros (-> & -> & ->) _. exists []. split; [constructor; reflexivity|apply within_nil].
  - intros (-> & L & H) E. cbn [conv_stack] in H. apply bind_ok in H as ([x c1] & H & [= <- <-]). rewrite app_nil_r in E.
    pose proof (leaf_reads _ _ _ _ _ _ Ly H E) as R. apply leaf_leaf0 in Ly as [Ly _]. destruct (leaf0_conv _ _ _ _ _ Ly H) as (ps & -> & -> & _).
    apply emb_head in E as [E _]. exists [c + 1]. split; [|apply within_one]. constructor; [lia|]. rewrite N2Z.id. eapply rd_last; eauto. reflexivity.
Qed.
Lemma kept_block G b c last bs c' : kept b -> convert_block b c last = Ok (bs, c') -> emb G c bs -> c' < 2 ^ 31 ->
  exists u pb, reads_block G (c + 1) b u /\ within c u c' /\ G (c + 1) pb /\ bl_next_block pb = if last then (-1)%Z else i32_of_u32 (c' + 1).
Proof.
  intros (K1 & K2 & T & Hn & F) H E L. apply convert_block_inv in H as (ps & ba & c1 & z1 & b1 & c2 & z2 & b2 & Ha & H1 & H2 & ->).
  pose proof (conv_args_le _ _ _ _ _ Ha) as [La _]. pose proof (sub_ptr_le _ _ _ _ _ H1) as [L1 _]. pose proof (sub_ptr_le _ _ _ _ _ H2) as [L2 _].
  apply emb_head in E as [E0 E]. apply (emb_app _ _ _ c1) in E as [Ea E]; [|lia]. apply (emb_app _ _ _ c2) in E as [E1 E2]; [|lia].
  destruct (kept_args G _ F _ _ _ _ Ha Ea) as (holes & u3 & Gv & R3 & W3); [lia|].
  destruct (kept_sub _ _ _ _ _ _ K1 H1 E1) as (u1 & R1 & W1). destruct (kept_sub _ _ _ _ _ _ K2 H2 E2) as (u2 & R2 & W2).
  exists ((c + 1) :: u1 ++ u2 ++ u3). eexists. split; [|split; [|split; [exact E0|reflexivity]]].
  - destruct b as [s1 s2 col op items ty]. cbn [ab_sub_stack1 ab_sub_stack2 ab_content ab_type] in *.
    eapply (rd_block G (c + 1) _ (map item_spec items) holes s1 u1 s2 u2 items u3 ty E0); auto.
    + apply raw_words; auto. apply kept_named, F.
    + cbn [raw bl_type bl_type_name ab_type]. now apply type_text_iff, type_back.
  - (* the used ids: the block itself, then the sub stacks, then the arguments *)
    destruct W1 as [N1 R1'], W2 as [N2 R2'], W3 as [N3 R3']. split.
    + constructor.
      * rewrite !in_app_iff. intros [X|[X|X]]; [apply R1' in X|apply R2' in X|apply R3' in X]; lia.
      * apply NoDup_app_intro; auto; [apply NoDup_app_intro; auto|].
        { intros k X Y. apply R2' in X. apply R3' in Y. lia. }
        { intros k X Y. apply R1' in X. apply in_app_iff in Y as [Y|Y]; [apply R2' in Y|apply R3' in Y]; lia. }
    + intros k [<-|X]; [lia|]. rewrite !in_app_iff in X. destruct X as [X|[X|X]]; [apply R1' in X|apply R2' in X|apply R3' in X]; lia.
Qed.
Lemma kept_blocks G l : Forall kept l -> l <> [] -> forall c bs c', conv_stack convert_block l c = Ok (bs, c') -> emb G c bs -> c' < 2 ^ 31 ->
  exists u, reads_stack G (c + 1) l u /\ within c u c'.
Proof.
  intros F. induction F as [|b l K F IH]; [congruence|]. intros _ c bs c' H E L. cbn [conv_stack] in H.
  apply bind_ok in H as ([x c1] & H1 & H). apply bind_ok in H as ([y c2] & H2 & [= <- <-]).
  pose proof (all_numbered _ _ _ _ _ H1) as [[L1 _] _]. pose proof (conv_stack_le _ _ _ _ H2) as [L2 _]. apply (emb_app _ _ _ c1) in E as [Ex Ey]; [|lia].
  destruct (kept_block _ _ _ _ _ _ K H1 Ex) as (u & pb & R & W & Gp & Np); [lia|]. destruct l as [|b' l].
  - cbn in H2. injection H2 as <- <-. exists u. split; [|auto]. eapply rd_last; eauto. rewrite Np. reflexivity.
  - destruct (IH ltac:(discriminate) _ _ _ H2 Ey L) as (v & R' & W'). exists (u ++ v).
    assert (Np' : bl_next_block pb = Z.of_N (c1 + 1)).
    { rewrite Np. apply stack_sized in H2. unfold blocks_size in H2. cbn [stack_size] in H2. destruct b'. cbn [block_size] in H2. unfold i32_of_u32. destruct (N.ltb_spec (c1 + 1) 2147483648); lia. }
    split; [|eapply within_app; [| |eauto|eauto]; lia]. eapply rd_next; eauto; rewrite Np'; [lia|]. now rewrite N2Z.id.
Qed.

(** ** What comes back was kept *)
Section Back.
  Context (G : N -> block -> Prop) (Gf : forall id x y, G id x -> G id y -> x = y).
  Lemma ref_back y c bs c' u : wf y -> convert_block y c true = Ok (bs, c') -> emb G c bs -> reads_block G c' y u -> leaf y.
  Proof.
    intros W H E R. pose proof (proj1 (all_numbered _ _ _ _ _ H)) as [Lc _]. destruct (all_ends y W _ _ _ H) as (z & pre & pb & -> & L & Hc & Hz).
    apply emb_last with (c' := c') in E; auto. replace c' with (c' - 1 + 1) in R, E by lia.
    destruct (leaf_reads_inv G z _ _ _ _ _ Gf L Hz E R) as [-> ?]. auto.
  Qed.
  Lemma stack_back l c bs c' u : wf_sub wf (Some l) -> conv_stack convert_block l c = Ok (bs, c') -> emb G c bs -> reads_stack G c' l u -> exists y, l = [y] /\ leaf y.
  Proof.
    intros [Hl W] H E R. pose proof (conv_stack_le _ _ _ _ H) as [Lc _].
    destruct (stack_ends l (stack_all_intro _ _ all_ends) W Hl _ _ _ H) as (z & pre & pb & -> & L & Hc & Hz).
    apply emb_last with (c' := c') in E; auto. assert (Np : bl_next_block pb = (-1)%Z) by (destruct (leaf0_conv _ _ _ _ _ L Hz) as (ps & [= ->] & _); reflexivity).
    replace c' with (c' - 1 + 1) in R, E by lia.
    inversion R as [id pb' b v Eg Hn Rb|id pb' b v l' w Eg Hn Rb Rs]; subst.
    - destruct (leaf_reads_inv G z _ _ _ _ _ Gf L Hz E Rb) as [-> ?]. eauto.
    - rewrite (Gf _ _ _ Eg E) in Hn. lia.
  Qed.
  Lemma sub_back s c z bs c' u : wf_sub wf s -> sub_ptr s c z bs c' -> emb G c bs -> reads_sub G z s u -> kept_stack s.
  Proof.
    intros W H E R. destruct s as [l|]; [|now left]. right. inversion R as [|z' l' u' Hz Rs]; subst. destruct l as [|b l]; [now destruct W|].
    cbn [sub_ptr] in H. destruct H as (-> & _ & H). rewrite N2Z.id in Rs. destruct (stack_back _ _ _ _ _ W H E Rs) as (y & -> & Ly). eauto.
  Qed.
  Lemma args_back items : wf_items wf items -> forall c ps bs c' holes u, conv_args convert_block items c = Ok (ps, bs, c') -> emb G c bs -> c' < 2 ^ 31 ->
    gives (map item_spec items) ps holes -> reads_items G holes items u -> Forall kept_item items.
  Proof.
    induction items as [|[t|a] items IH]; cbn [wf_items conv_args map item_spec]; intros W c ps bs c' holes u H E L Gv R; [constructor| |].
    - destruct W as [Wt W]. cbn [wf_item] in Wt. constructor; [exact Wt|].
      inversion Gv as [|t' ts args is P Gv'|? ? ? ? ? ? ? P|? ? ? ? ? ? ? P|? ? ? ? ? ? ? P|? ? ? ? ? ? P]; subst.
      2-5: destruct P as (r & -> & _); destruct Wt as [_ Wt]; destruct Wt; now eexists.
      inversion R; subst. eapply IH; eauto.
    - destruct W as [[N W1] W]. apply bind_ok in H as ([[p x] c1] & Ha & H). apply bind_ok in H as ([[ps' y] c2] & H & [= <- <- <-]).
      pose proof (conv_args_le _ _ _ _ _ H) as [L2 _]. pose proof (conv_arg_le _ _ _ _ _ Ha) as [L1 _].
      apply (emb_app G c x c1 y) in E as [Ex Ey]; [|lia]. pose proof (proj2 (param_spec a N)) as Wd.
      assert (Hp : is_param (arg_spec a)) by (destruct a; destruct Wd as (r & -> & _); now eexists).
      assert (X : exists h holes' v u', holes = SParam h :: holes' /\ reads_arg G h a v /\ reads_items G holes' items u' /\ gives (map item_spec items) ps' holes' /\
        forall id, match h with ArgString _ w => w = APlaceholder id | ArgNumber _ w => w = APlaceholder id | ArgBoolean _ w => w = APlaceholder id | ArgMenu _ _ => False end ->
        exists r, p = 64 :: r /\ parse_u32 r = Some id).
      { inversion Gv as [|t' ts args is P Gv'|t n q w ts args is P Rw Gv'|t n q w ts args is P Rw Gv'|t n q w ts args is P Rw Gv'|t n q ts args is P Gv']; subst; [tauto|..];
          inversion R; subst; do 4 eexists; (split; [reflexivity|split; [eauto|split; [eauto|split; [eauto|]]]]); intros id K; first [contradiction|subst w; destruct Rw as (r & -> & Pr); eauto]. }
      destruct X as (h & holes' & v & u' & -> & Ra & R' & Gv' & Hr). constructor; [|eapply IH; eauto]. split; [exact N|].
      assert (V : forall T (f : T -> str) b id ub, conv_value convert_block f (ABlock b) c = Ok (p, x, c1) -> wf b -> reads_block G id b ub -> (exists r, p = 64 :: r /\ parse_u32 r = Some id) -> leaf b).
      { intros T f b id ub Hc Wb Rb (r & Ep & Pr). cbn [conv_value] in Hc. apply bind_ok in Hc as ([bs0 c0] & Hc & [= <- <- <-]). injection Ep as Er.
        assert (id = c0). { change (dec_of_N c0 = r) in Er. rewrite <- Er, parse_u32_dec in Pr by (unfold U32MAX; lia). congruence. }
        subst id. eapply ref_back; eauto. }
      destruct a as [n w|n w|n w|n w]; cbn [conv_arg kept_value plain_value] in *; destruct w as [t|b|i|]; try tauto.
      + inversion Ra; subst. eapply V; eauto.
      + inversion Ra; subst. eapply V; eauto.
      + destruct W1 as (Wb & O1 & O2). split; [|auto]. inversion Ra; subst. eapply V; eauto.
  Qed.
  Lemma block_back b c last bs c' u : wf b -> convert_block b c last = Ok (bs, c') -> emb G c bs -> c' < 2 ^ 31 -> reads_block G (c + 1) b u -> kept b.
  Proof.
    intros W H E L R. apply wf_parts in W as (W1 & W2 & Hn & W). apply convert_block_inv in H as (ps & ba & c1 & z1 & b1 & c2 & z2 & b2 & Ha & H1 & H2 & ->).
    pose proof (conv_args_le _ _ _ _ _ Ha) as [La _]. pose proof (sub_ptr_le _ _ _ _ _ H1) as [L1 _]. pose proof (sub_ptr_le _ _ _ _ _ H2) as [L2 _].
    apply emb_head in E as [E0 E]. apply (emb_app _ _ _ c1) in E as [Ea E]; [|lia]. apply (emb_app _ _ _ c2) in E as [E1 E2]; [|lia].
    inversion R as [id pb ws holes s1 u1 s2 u2 items u3 ty Eg R1 R2 Wd Gv R3 T]. subst id u. 
    assert (Eb : s1 = ab_sub_stack1 b /\ s2 = ab_sub_stack2 b /\ items = ab_content b /\ ty = ab_type b) by (match goal with X : MkBlock _ _ _ _ _ _ = b |- _ => rewrite <- X end; auto).
    destruct Eb as (-> & -> & -> & ->). rewrite (Gf _ _ _ Eg E0) in *. apply raw_words in Wd; auto; [|eapply wf_items_named; eauto]. subst ws. cbn [raw bl_sub_stack1 bl_sub_stack2 bl_type bl_type_name bl_parameters] in *.
    split; [eapply sub_back; eauto|]. split; [eapply sub_back; eauto|]. split; [now apply type_text_iff, type_back_inv in T|]. split; [auto|].
    eapply (args_back _ W); eauto. lia.
  Qed.
  Lemma blocks_back l c bs c' u : stack_all wf l -> conv_stack convert_block l c = Ok (bs, c') -> emb G c bs -> c' < 2 ^ 31 -> reads_stack G (c + 1) l u -> Forall kept l.
  Proof.
    revert c bs u. induction l as [|b l IH]; intros c bs u W H E L R; [constructor|]. cbn [conv_stack] in H. destruct W as [Wb W].
    apply bind_ok in H as ([x c1] & H1 & H). apply bind_ok in H as ([y c2] & H2 & [= <- <-]).
    pose proof (all_numbered _ _ _ _ _ H1) as [[L1 _] _]. pose proof (conv_stack_le _ _ _ _ H2) as [L2 _]. apply (emb_app _ _ _ c1) in E as [Ex Ey]; [|lia].
    assert (Nx : exists ps z1 z2, G (c + 1) (raw b (c + 1) (match l with [] => -1 | _ => i32_of_u32 (c1 + 1) end) ps z1 z2)).
    { pose proof H1 as H1'. apply convert_block_inv in H1' as (ps & ba & ca & z1 & b1 & cb & z2 & b2 & _ & _ & _ & ->). apply emb_head in Ex as [Ex _].
      exists ps, z1, z2. destruct l; exact Ex. }
    destruct Nx as (ps & z1 & z2 & Nx).
    inversion R as [id pb b' v Eg Hn Rb|id pb b' v l' w Eg Hn Rb Rs]; subst id b'.
    - subst l. constructor; [|constructor]. eapply block_back; eauto. lia.
    - subst l'. constructor; [eapply block_back; eauto; lia|]. destruct l as [|b2 l]; [constructor|].
      rewrite (Gf _ _ _ Eg Nx) in Rs. cbn [raw bl_next_block] in Rs.
      replace (Z.to_N (i32_of_u32 (c1 + 1))) with (c1 + 1) in Rs.
      2:{ apply stack_sized in H2. unfold blocks_size in H2. cbn [stack_size] in H2. destruct b2. cbn [block_size] in H2. unfold i32_of_u32. destruct (N.ltb_spec (c1 + 1) 2147483648); lia. }
      eapply IH; eauto.
  Qed.
End Back.
Theorem trip_iff l c : blocks_into l = Ok c -> 9 + N.of_nat (length c) < 2 ^ 31 -> blocks_try_from c = Ok l <-> Forall kept l.
Proof.
  intros H L. pose proof (into_stack _ _ H) as Hs. destruct (into_numbered _ _ H) as [Hn He]. pose proof (graph_emb _ _ Hn L) as E. rewrite try_from_iff.
  assert (Pn : Forall (fun b => parse_u32 (bl_id b) <> None) c).
  { apply Forall_forall. intros q Q. apply In_nth_error in Q as [j J]. rewrite (proj2 Hn _ _ J), parse_u32_dec; [discriminate|].
    assert (j < length c)%nat by (apply nth_error_Some; congruence). unfold U32MAX. lia. }
  split.
  - intros (u & [_ [(_ & -> & _)|(id & S & R)]] & _); [constructor|].
    assert (Hc : c <> []) by (intros ->; destruct S as ([|? ?] & ? & ? & X & _); discriminate). apply (start_numbered _ _ Hn L Hc) in S. subst id.
    eapply (blocks_back (graph c) (graph_fun c) l 9); eauto. now apply (proj1 (proj2 (proj2 (reads_wf (graph c))))) in R.
  - intros F. destruct l as [|b l].
    + rewrite (proj2 He eq_refl) in *. exists []. split; [split; [constructor|left; auto]|constructor].
    + destruct (kept_blocks (graph c) (b :: l) F ltac:(discriminate) 9 _ _ Hs E L) as (u & R & [Nu _]). exists u. split; [|auto]. split; [auto|]. right.
      exists 10. split; [|exact R]. apply (start_numbered _ _ Hn L); [|reflexivity]. intros X. apply He in X. discriminate.
Qed.
(** every used id is the id of a raw block *)
Lemma reads_uses G :
  (forall id b u, reads_block G id b u -> forall k, In k u -> exists pb, G k pb) /\
  (forall z s u, reads_sub G z s u -> forall k, In k u -> exists pb, G k pb) /\
  (forall id l u, reads_stack G id l u -> forall k, In k u -> exists pb, G k pb) /\
  (forall h i u, reads_items G h i u -> forall k, In k u -> exists pb, G k pb) /\
  (forall a b u, reads_arg G a b u -> forall k, In k u -> exists pb, G k pb).
Proof.
  apply (reads_ind G (fun id b u _ => forall k, In k u -> exists pb, G k pb) (fun z s u _ => forall k, In k u -> exists pb, G k pb)
    (fun id l u _ => forall k, In k u -> exists pb, G k pb) (fun h i u _ => forall k, In k u -> exists pb, G k pb) (fun a b u _ => forall k, In k u -> exists pb, G k pb)).
  all: intros; repeat match goal with H : In _ (_ :: _) |- _ => destruct H as [<-|H] | H : In _ (_ ++ _) |- _ => apply in_app_iff in H as [H|H] end; eauto; try contradiction.
Qed.
