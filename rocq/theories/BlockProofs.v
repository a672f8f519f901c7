(** Proofs about the conversion of raw blocks into blocks ([A_Block.v]). *)
From Verif Require Import Base Spec Str Dec Flt M_Color M_Logic A_Block SpecBlock LogicMapProofs BlockContentProofs.
From Coq Require Import ZifyNat ZifyN ZifyBool.

(** ** Maps *)
Definition mdel (u : list N) (m : bmap) : bmap := filter (fun kv => negb (existsb (N.eqb (fst kv)) u)) m.
Lemma mdel_nil m : mdel [] m = m.
Proof. unfold mdel. induction m as [|kv m IH]; cbn; [reflexivity|]. now f_equal. Qed.
Lemma bremove_mdel id m : bremove id m = mdel [id] m.
Proof.
  unfold bremove, mdel. induction m as [|[k v] m IH]; cbn [lremove filter fst existsb]; [reflexivity|].
  rewrite orb_false_r, N.eqb_sym. destruct (k =? id); cbn [negb]; now rewrite IH.
Qed.
Lemma mdel_app u v m : mdel (u ++ v) m = mdel v (mdel u m).
Proof.
  unfold mdel. induction m as [|kv m IH]; cbn [filter]; [reflexivity|]. rewrite existsb_app.
  destruct (existsb (N.eqb (fst kv)) u); cbn [orb negb filter]; [apply IH|].
  destruct (existsb (N.eqb (fst kv)) v); cbn [negb]; now rewrite IH.
Qed.
Lemma existsb_eqb k u : existsb (N.eqb k) u = true <-> In k u.
Proof. rewrite existsb_exists. split; [intros (x & Hx & E); apply N.eqb_eq in E; now subst|]. intros H. exists k. split; auto. apply N.eqb_refl. Qed.
Lemma bget_mdel k u m : bget k (mdel u m) = if existsb (N.eqb k) u then None else bget k m.
Proof.
  unfold bget, mdel. induction m as [|[k' v] m IH]; cbn [filter lget fst]; [now destruct (existsb _ u)|].
  destruct (existsb (N.eqb k') u) eqn:E; cbn [negb lget].
  - rewrite IH. destruct (N.eqb_spec k k') as [->|]; auto. now rewrite E.
  - destruct (N.eqb_spec k k') as [->|]; [now rewrite E|]. apply IH.
Qed.
Lemma bget_mdel_in k u m : In k u -> bget k (mdel u m) = None.
Proof. intros H. rewrite bget_mdel. apply existsb_eqb in H. now rewrite H. Qed.
Lemma bget_mdel_out k u m : ~ In k u -> bget k (mdel u m) = bget k m.
Proof. intros H. rewrite bget_mdel. destruct (existsb (N.eqb k) u) eqn:E; auto. apply existsb_eqb in E. tauto. Qed.
Lemma mdel_length u m : (length (mdel u m) <= length m)%nat.
Proof. unfold mdel. induction m as [|kv m IH]; cbn; [lia|]. destruct (negb _); cbn; lia. Qed.
Lemma bremove_length id m pb : bget id m = Some pb -> (length (bremove id m) < length m)%nat.
Proof.
  unfold bget, bremove. induction m as [|[k v] m IH]; cbn [lget lremove]; [discriminate|].
  destruct (N.eqb_spec id k) as [->|H].
  - intros _. pose proof (mdel_length [k] m) as L. rewrite <- bremove_mdel in L. unfold bremove in L. cbn [length]. lia.
  - intros E. specialize (IH E). cbn [length]. lia.
Qed.

(** ** The interpreter, one step *)
Definition sub_step (d : nat) (err : conv_error -> conv_error) (z : Z) (m : bmap) : out conv_error (option blocks * bmap) :=
  if (z <? 0)%Z then Some (Ok (None, m)) else
    let! (s, m1) := omap_err err (parse_blocks d (Z.to_N z) m) in Some (Ok (Some s, m1)).
Lemma parse_block_S d id m : parse_block (S d) id m =
  (let! pb := Some (ok_or (BlockNotFound id) (bget id m)) in
   let! (s1, m1) := sub_step d (Substack1ParseError id (Z.to_N (bl_sub_stack1 pb))) (bl_sub_stack1 pb) (bremove id m) in
   let! (s2, m2) := sub_step d (Substack2ParseError id (Z.to_N (bl_sub_stack2 pb))) (bl_sub_stack2 pb) m1 in
   let! items := Some (map_err BlockContentParseError (content_parse (bl_spec pb) (bl_parameters pb))) in
   let! (items', m3) := omap_err BlockContentParseError (apply_blocks (parse_block d) ab_op_code items m2) in
   let! ty := Some (map_err InvalidType (block_type_from (bl_type pb) (bl_type_name pb))) in
   Some (Ok (MkBlock s1 s2 (bl_color pb) (bl_op_code pb) items' ty, m3))).
Proof. reflexivity. Qed.
Lemma parse_blocks_S d id m : parse_blocks (S d) id m =
  (let! pb := Some (ok_or (BlockNotFound id) (bget id m)) in
   let! (b, m1) := parse_block d id m in
   if (bl_next_block pb <? 0)%Z then Some (Ok ([b], m1))
   else let! (bs, m2) := parse_blocks d (Z.to_N (bl_next_block pb)) m1 in Some (Ok (b :: bs, m2))).
Proof. reflexivity. Qed.
#[local] Arguments parse_block : simpl never.
#[local] Arguments parse_blocks : simpl never.

Lemma obnd_ok {E A C} (x : out E A) (f : A -> out E C) c : obnd x f = Some (Ok c) -> exists a, x = Some (Ok a) /\ f a = Some (Ok c).
Proof. destruct x as [[a| |]|]; cbn; try discriminate. eauto. Qed.
Lemma obnd_none {E A C} (x : out E A) (f : A -> out E C) : obnd x f = None -> x = None \/ exists a, x = Some (Ok a) /\ f a = None.
Proof. destruct x as [[a| |]|]; cbn; try discriminate; eauto. Qed.
Lemma obnd_panic {E A C} (x : out E A) (f : A -> out E C) : obnd x f = Some Panic -> x = Some Panic \/ exists a, x = Some (Ok a) /\ f a = Some Panic.
Proof. destruct x as [[a| |]|]; cbn; try discriminate; eauto. Qed.
Lemma omap_err_ok {E F A} (f : E -> F) (x : out E A) a : omap_err f x = Some (Ok a) <-> x = Some (Ok a).
Proof. destruct x as [[b| |]|]; cbn; split; congruence. Qed.
Lemma omap_err_none {E F A} (f : E -> F) (x : out E A) : omap_err f x = None <-> x = None.
Proof. destruct x as [[b| |]|]; cbn; split; congruence. Qed.
Lemma omap_err_panic {E F A} (f : E -> F) (x : out E A) : omap_err f x = Some Panic <-> x = Some Panic.
Proof. destruct x as [[b| |]|]; cbn; split; congruence. Qed.
Lemma ok_or_ok {E A} (e : E) (o : option A) a : Some (ok_or e o) = Some (Ok a) <-> o = Some a.
Proof. destruct o; cbn; split; congruence. Qed.
Lemma map_err_ok {E F A} (f : E -> F) (r : res E A) a : Some (map_err f r) = Some (Ok a) <-> r = Ok a.
Proof. destruct r; cbn; split; congruence. Qed.

(** ** [apply_blocks] over an arbitrary state *)
Section Apply.
  Context {S E : Type}.
  Implicit Types get : N -> S -> out E (ablock * S).
  (** an invariant relating the states before and after *)
  Lemma apply_blocks_rel get (R : S -> S -> Prop) : (forall s, R s s) -> (forall a b c, R a b -> R b c -> R a c) ->
    (forall id s b s', get id s = Some (Ok (b, s')) -> R s s') ->
    forall items s i' s', apply_blocks get ab_op_code items s = Some (Ok (i', s')) -> R s s'.
  Proof.
    intros Rr Rt H. induction items as [|[t|a] items IH]; intros s i' s'; cbn [apply_blocks].
    - intros [= <- <-]. auto.
    - intros K. apply obnd_ok in K as ([is s1] & K & [= <- <-]). eauto.
    - intros K. apply obnd_ok in K as ([b s1] & K1 & K). apply obnd_ok in K as ([is s2] & K2 & [= <- <-]). apply Rt with s1; [|eauto].
      assert (V : forall T (v w : arg_value ablock T), fill_value get v s = Some (Ok (w, s1)) -> R s s1).
      { intros T v w. destruct v; cbn [fill_value]; try (intros [= <- <-]; auto).
        intros X. apply obnd_ok in X as ([x y] & X & [= <- <-]). unfold get_block in X. apply (proj1 (omap_err_ok _ _ _)) in X. eauto. }
      destruct a as [n v|n v|n v|n v]; cbn [fill_arg] in K1; apply obnd_ok in K1 as ([w s3] & K1 & [= <- <-]); try (eapply V; eauto; fail).
      destruct v; cbn [fill_boolean] in K1; try (injection K1 as <- <-; auto).
      apply obnd_ok in K1 as ([x y] & X & [= <- <-]). unfold get_block in X. apply (proj1 (omap_err_ok _ _ _)) in X. eauto.
  Qed.
  Lemma apply_blocks_none get (I : S -> Prop) : (forall id s b s', I s -> get id s = Some (Ok (b, s')) -> I s') ->
    (forall id s, I s -> get id s <> None) -> forall items s, I s -> apply_blocks get ab_op_code items s <> None.
  Proof.
    intros HI HN. induction items as [|[t|a] items IH]; intros s Hs; cbn [apply_blocks].
    - discriminate.
    - intros K. apply obnd_none in K as [K|([is s1] & _ & K)]; [|discriminate]. now apply IH in K.
    - intros K.
      assert (V : forall T (v : arg_value ablock T), fill_value get v s <> None).
      { intros T v. destruct v; cbn [fill_value]; try discriminate. intros X. apply obnd_none in X as [X|([x y] & _ & X)]; [|discriminate].
        apply (proj1 (omap_err_none _ _)) in X. now apply HN in X. }
      assert (W : forall T (v w : arg_value ablock T) s', fill_value get v s = Some (Ok (w, s')) -> I s').
      { intros T v w s'. destruct v; cbn [fill_value]; try (intros [= <- <-]; auto).
        intros X. apply obnd_ok in X as ([x y] & X & [= <- <-]). unfold get_block in X. apply (proj1 (omap_err_ok _ _ _)) in X. eauto. }
      apply obnd_none in K as [K|([b s1] & K1 & K)].
      + destruct a as [n v|n v|n v|n v]; cbn [fill_arg] in K; apply obnd_none in K as [K|([x y] & _ & K)]; try discriminate; try (now apply V in K).
        destruct v; cbn [fill_boolean] in K; try discriminate. apply obnd_none in K as [X|([x y] & _ & X)]; [|discriminate].
        apply (proj1 (omap_err_none _ _)) in X. now apply HN in X.
      + apply obnd_none in K as [K|([is s2] & _ & K)]; [|discriminate]. revert K. apply IH.
        destruct a as [n v|n v|n v|n v]; cbn [fill_arg] in K1; apply obnd_ok in K1 as ([w s3] & K1 & [= <- <-]); try (eapply W; eauto; fail).
        destruct v; cbn [fill_boolean] in K1; try (injection K1 as <- <-; auto).
        apply obnd_ok in K1 as ([x y] & X & [= <- <-]). unfold get_block in X. apply (proj1 (omap_err_ok _ _ _)) in X. eauto.
  Qed.
  Lemma apply_blocks_mono get get' : (forall id s r, get id s = Some r -> get' id s = Some r) ->
    forall items s r, apply_blocks get ab_op_code items s = Some r -> apply_blocks get' ab_op_code items s = Some r.
  Proof.
    intros H.
    assert (G : forall id s r, get_block get id s = Some r -> get_block get' id s = Some r).
    { intros id s r. unfold get_block, omap_err. destruct (get id s) as [x|] eqn:Eq; [|discriminate]. cbn. now rewrite (H _ _ _ Eq). }
    assert (V : forall T (v : arg_value ablock T) s r, fill_value get v s = Some r -> fill_value get' v s = Some r).
    { intros T v s r. destruct v; cbn [fill_value]; auto. destruct (get_block get block_id s) as [x|] eqn:Eq; [|discriminate]. now rewrite (G _ _ _ Eq). }
    assert (W : forall v s r, fill_boolean get ab_op_code v s = Some r -> fill_boolean get' ab_op_code v s = Some r).
    { intros v s r. destruct v; cbn [fill_boolean]; auto. destruct (get_block get block_id s) as [x|] eqn:Eq; [|discriminate]. now rewrite (G _ _ _ Eq). }
    assert (A : forall a s r, fill_arg get ab_op_code a s = Some r -> fill_arg get' ab_op_code a s = Some r).
    { intros a s r. destruct a as [n v|n v|n v|n v]; cbn [fill_arg].
      1,2,4: destruct (fill_value get v s) as [x|] eqn:Eq; [|discriminate]; now rewrite (V _ _ _ _ Eq).
      destruct (fill_boolean get ab_op_code v s) as [x|] eqn:Eq; [|discriminate]; now rewrite (W _ _ _ Eq). }
    induction items as [|[t|a] items IH]; intros s r; cbn [apply_blocks]; auto.
    - destruct (apply_blocks get ab_op_code items s) as [x|] eqn:Eq; [|discriminate]. now rewrite (IH _ _ Eq).
    - destruct (fill_arg get ab_op_code a s) as [x|] eqn:Eq; [|discriminate]. rewrite (A _ _ _ Eq). destruct x as [[b s1]| |]; cbn [obnd]; auto.
      destruct (apply_blocks get ab_op_code items s1) as [x|] eqn:Eq1; [|discriminate]. now rewrite (IH _ _ Eq1).
  Qed.
End Apply.

(** ** Depth *)
Lemma parse_mono d : (forall id m r, parse_block d id m = Some r -> parse_block (S d) id m = Some r) /\
  (forall id m r, parse_blocks d id m = Some r -> parse_blocks (S d) id m = Some r).
Proof.
  induction d as [|d [IHb IHs]]; [split; discriminate|].
  assert (Sub : forall err z m r, sub_step d err z m = Some r -> sub_step (S d) err z m = Some r).
  { intros err z m r. unfold sub_step. destruct (z <? 0)%Z; auto. destruct (parse_blocks d (Z.to_N z) m) as [x|] eqn:E; [|discriminate].
    now rewrite (IHs _ _ _ E). }
  split; intros id m r.
  - rewrite parse_block_S, (parse_block_S (S d)). destruct (bget id m) as [pb|]; [|auto]. cbn [ok_or obnd].
    destruct (sub_step d _ (bl_sub_stack1 pb) _) as [x|] eqn:E1; [|discriminate]. rewrite (Sub _ _ _ _ E1). destruct x as [[s1 m1]| |]; cbn [obnd]; auto.
    destruct (sub_step d _ (bl_sub_stack2 pb) _) as [x|] eqn:E2; [|discriminate]. rewrite (Sub _ _ _ _ E2). destruct x as [[s2 m2]| |]; cbn [obnd]; auto.
    destruct (content_parse _ _) as [items| |]; cbn [map_err obnd]; auto.
    destruct (apply_blocks (parse_block d) ab_op_code items m2) as [x|] eqn:E3; [|discriminate].
    now rewrite (apply_blocks_mono _ _ IHb _ _ _ E3).
  - rewrite parse_blocks_S, (parse_blocks_S (S d)). destruct (bget id m) as [pb|]; [|auto]. cbn [ok_or obnd].
    destruct (parse_block d id m) as [x|] eqn:E1; [|discriminate]. rewrite (IHb _ _ _ E1). destruct x as [[b m1]| |]; cbn [obnd]; auto.
    destruct (bl_next_block pb <? 0)%Z; auto.
    destruct (parse_blocks d _ m1) as [x|] eqn:E2; [|discriminate]. now rewrite (IHs _ _ _ E2).
Qed.
Lemma parse_blocks_mono d d' id m r : (d <= d')%nat -> parse_blocks d id m = Some r -> parse_blocks d' id m = Some r.
Proof. intros L H. induction L; auto. now apply parse_mono. Qed.
Lemma parse_block_mono d d' id m r : (d <= d')%nat -> parse_block d id m = Some r -> parse_block d' id m = Some r.
Proof. intros L H. induction L; auto. now apply parse_mono. Qed.
Lemma parse_shrinks d : (forall id m b m', parse_block d id m = Some (Ok (b, m')) -> (length m' < length m)%nat) /\
  (forall id m b m', parse_blocks d id m = Some (Ok (b, m')) -> (length m' < length m)%nat).
Proof.
  induction d as [|d [IHb IHs]]; [split; discriminate|].
  assert (Sub : forall err z m s m', sub_step d err z m = Some (Ok (s, m')) -> (length m' <= length m)%nat).
  { intros err z m s m'. unfold sub_step. destruct (z <? 0)%Z; [intros [= <- <-]; lia|]. intros K. apply obnd_ok in K as ([l m1] & K & [= <- <-]).
    apply (proj1 (omap_err_ok _ _ _)) in K. apply IHs in K. lia. }
  split; intros id m b m' K.
  - rewrite parse_block_S in K. apply obnd_ok in K as (pb & Hg & K). apply (proj1 (ok_or_ok _ _ _)) in Hg. pose proof (bremove_length _ _ _ Hg).
    apply obnd_ok in K as ([s1 m1] & K1 & K). apply obnd_ok in K as ([s2 m2] & K2 & K). apply obnd_ok in K as (items & _ & K).
    apply obnd_ok in K as ([i' m3] & K3 & K). apply obnd_ok in K as (ty & _ & [= <- <-]). apply Sub in K1. apply Sub in K2.
    apply (proj1 (omap_err_ok _ _ _)) in K3.
    apply (apply_blocks_rel _ (fun a b => (length b <= length a)%nat)) in K3; [lia|auto|intros; lia|]. intros. apply IHb in H0. lia.
  - rewrite parse_blocks_S in K. apply obnd_ok in K as (pb & Hg & K). apply obnd_ok in K as ([x m1] & K1 & K). apply IHb in K1.
    destruct (bl_next_block pb <? 0)%Z; [injection K as <- <-; auto|]. apply obnd_ok in K as ([bs m2] & K2 & [= <- <-]). apply IHs in K2. lia.
Qed.
Lemma parse_terminates d : (forall id m, (2 * length m + 1 <= d)%nat -> parse_block d id m <> None) /\
  (forall id m, (2 * length m + 2 <= d)%nat -> parse_blocks d id m <> None).
Proof.
  induction d as [|d [IHb IHs]]; [split; intros; lia|]. split; intros id m L K.
  - rewrite parse_block_S in K. apply obnd_none in K as [K|(pb & Hg & K)]; [discriminate|]. apply (proj1 (ok_or_ok _ _ _)) in Hg. pose proof (bremove_length _ _ _ Hg).
    assert (Sub : forall err z m', (length m' < length m)%nat -> sub_step d err z m' <> None).
    { intros err z m' Lm. unfold sub_step. destruct (z <? 0)%Z; [discriminate|]. intros X. apply obnd_none in X as [X|([? ?] & _ & X)]; [|discriminate].
      apply (proj1 (omap_err_none _ _)) in X. apply IHs in X; [auto|lia]. }
    assert (SubL : forall err z m' s m'', sub_step d err z m' = Some (Ok (s, m'')) -> (length m'' <= length m')%nat).
    { intros err z m' s m''. unfold sub_step. destruct (z <? 0)%Z; [intros [= <- <-]; lia|]. intros X. apply obnd_ok in X as ([l m1] & X & [= <- <-]).
      apply (proj1 (omap_err_ok _ _ _)) in X. apply parse_shrinks in X. lia. }
    apply obnd_none in K as [K|([s1 m1] & K1 & K)]; [revert K; apply Sub; auto|]. apply SubL in K1.
    apply obnd_none in K as [K|([s2 m2] & K2 & K)]; [revert K; apply Sub; lia|]. apply SubL in K2.
    apply obnd_none in K as [K|(items & _ & K)]; [discriminate|].
    apply obnd_none in K as [K|([i' m3] & _ & K)].
    + apply (proj1 (omap_err_none _ _)) in K. revert K. apply (apply_blocks_none _ (fun s => (length s < length m)%nat)).
      * intros id' s b s' Hs Hb. apply parse_shrinks in Hb. lia.
      * intros id' s Hs. apply IHb. lia.
      * lia.
    + apply obnd_none in K as [K|(ty & _ & K)]; discriminate.
  - rewrite parse_blocks_S in K. apply obnd_none in K as [K|(pb & Hg & K)]; [discriminate|].
    apply obnd_none in K as [K|([b m1] & K1 & K)]; [revert K; apply IHb; lia|]. apply parse_shrinks in K1.
    destruct (bl_next_block pb <? 0)%Z; [discriminate|]. apply obnd_none in K as [K|([bs m2] & _ & K)]; [|discriminate].
    revert K. apply IHs. lia.
Qed.

(** ** Reading *)
Scheme rdb_ind := Induction for reads_block Sort Prop
with rdsub_ind := Induction for reads_sub Sort Prop
with rdst_ind := Induction for reads_stack Sort Prop
with rdi_ind := Induction for reads_items Sort Prop
with rda_ind := Induction for reads_arg Sort Prop.
Combined Scheme reads_ind from rdb_ind, rdsub_ind, rdst_ind, rdi_ind, rda_ind.
Definition mg (m : bmap) (k : N) (pb : block) : Prop := bget k m = Some pb.
Lemma reads_mono (G G' : N -> block -> Prop) : (forall k p, G k p -> G' k p) ->
  (forall id b u, reads_block G id b u -> reads_block G' id b u) /\
  (forall z s u, reads_sub G z s u -> reads_sub G' z s u) /\
  (forall id l u, reads_stack G id l u -> reads_stack G' id l u) /\
  (forall h i u, reads_items G h i u -> reads_items G' h i u) /\
  (forall a b u, reads_arg G a b u -> reads_arg G' a b u).
Proof.
  intros H. apply (reads_ind G (fun id b u _ => reads_block G' id b u) (fun z s u _ => reads_sub G' z s u)
    (fun id l u _ => reads_stack G' id l u) (fun h i u _ => reads_items G' h i u) (fun a b u _ => reads_arg G' a b u)).
  all: intros; try (econstructor; eauto; fail).
Qed.
Definition used (m : bmap) (u : list N) : Prop := NoDup u /\ forall k, In k u -> bget k m <> None.
Lemma used_nil m : used m [].
Proof. split; [constructor|intros ? []]. Qed.
Lemma NoDup_app_intro {A} (u v : list A) : NoDup u -> NoDup v -> (forall k, In k u -> ~ In k v) -> NoDup (u ++ v).
Proof.
  intros N1 N2 X. induction N1 as [|x u Hx N1 IH]; cbn [app]; auto.
  constructor; [|apply IH; intros; apply X; now right]. rewrite in_app_iff. intros [K|K]; [tauto|]. apply (X x); [now left|auto].
Qed.
Lemma NoDup_app_elim {A} (u v : list A) : NoDup (u ++ v) -> NoDup u /\ NoDup v /\ forall k, In k u -> ~ In k v.
Proof.
  induction u as [|x u IH]; cbn [app]; intros H; [repeat split; auto; constructor|]. inversion H; subst. destruct (IH H3) as (A1 & A2 & A3).
  rewrite in_app_iff in H2. split; [constructor; tauto|]. split; auto. intros k [->|Hk]; [tauto|auto].
Qed.
Lemma used_app m u v : used m u -> used (mdel u m) v -> used m (u ++ v).
Proof.
  intros [N1 D1] [N2 D2]. split.
  - apply NoDup_app_intro; auto. intros k Hu Hv. apply (D2 k Hv). now apply bget_mdel_in.
  - intros k Hk. apply in_app_iff in Hk as [Hk|Hk]; auto. specialize (D2 k Hk). rewrite bget_mdel in D2. destruct (existsb _ u); [tauto|auto].
Qed.
Lemma mg_mdel u m k p : mg (mdel u m) k p -> mg m k p.
Proof. unfold mg. rewrite bget_mdel. destruct (existsb _ u); [discriminate|auto]. Qed.

Definition fresh_arg (a : argument ablock) : Prop :=
  match a with
  | ArgString _ v => (exists t, v = AValue t) \/ exists id, v = APlaceholder id
  | ArgNumber _ v => (exists t, v = AValue t) \/ exists id, v = APlaceholder id
  | ArgBoolean _ v => (exists t, v = AValue t) \/ exists id, v = APlaceholder id
  | ArgMenu _ v => exists t, v = AValue t
  end.
Lemma reads_as_fresh {T} (g : str -> T -> Prop) a (v : arg_value ablock T) : reads_as g a v -> (exists t, v = AValue t) \/ exists id, v = APlaceholder id.
Proof. destruct v; cbn [reads_as]; try tauto; eauto. Qed.
Lemma gives_fresh ts args is : gives ts args is -> Forall fresh_arg (get_args is).
Proof.
  intros H. induction H; cbn [get_args flat_map app]; try (constructor; [|exact IHgives]); cbn [fresh_arg]; eauto using reads_as_fresh.
Qed.

Lemma type_text_iff s n t : block_type_from s n = Ok t <-> type_text s n t.
Proof.
  split; [|intros H; destruct H; reflexivity]. unfold block_type_from. cbv zeta.
  repeat (match goal with |- context [str_eqb s ?l] => destruct (str_eqb_spec s l) as [->|_]; [try (intros [= <-]; constructor; fail)|] end); [|discriminate].
  unfold list_item_from_str. destruct (str_eqb_spec n (lit "List String")) as [->|_]; [intros [= <-]; constructor|].
  destruct (str_eqb_spec n (lit "List Number")) as [->|_]; [intros [= <-]; constructor|]. discriminate.
Qed.
Lemma type_text_err s n e : block_type_from s n = Err e <-> (forall t, ~ type_text s n t) /\ e = {| ibt_type := s; ibt_name := n |}.
Proof.
  split.
  - intros H. split; [intros t T; apply type_text_iff in T; congruence|]. revert H. unfold block_type_from. cbv zeta.
    repeat (match goal with |- context [str_eqb s ?l] => destruct (str_eqb s l) end; try discriminate); [|now intros [= <-]].
    destruct (list_item_from_str n); cbn [ok_or bind]; [discriminate|now intros [= <-]].
  - intros [H ->]. destruct (block_type_from s n) as [t|e|] eqn:X; [apply type_text_iff in X; now apply H in X| |]; revert X; unfold block_type_from; cbv zeta;
      repeat (match goal with |- context [str_eqb s ?l] => destruct (str_eqb s l) end; try discriminate); try (now intros [= <-]);
      destruct (list_item_from_str n); cbn [ok_or bind]; try discriminate; now intros [= <-].
Qed.

Lemma parse_sound d :
  (forall id m b m', parse_block d id m = Some (Ok (b, m')) -> exists u, reads_block (mg m) id b u /\ used m u /\ m' = mdel u m) /\
  (forall id m l m', parse_blocks d id m = Some (Ok (l, m')) -> exists u, reads_stack (mg m) id l u /\ used m u /\ m' = mdel u m).
Proof.
  induction d as [|d [IHb IHs]]; [split; discriminate|].
  assert (Sub : forall err z m s m', sub_step d err z m = Some (Ok (s, m')) -> exists u, reads_sub (mg m) z s u /\ used m u /\ m' = mdel u m).
  { intros err z m s m'. unfold sub_step. destruct (Z.ltb_spec z 0) as [Hz|Hz].
    - intros [= <- <-]. exists []. split; [now constructor|]. split; [apply used_nil|]. now rewrite mdel_nil.
    - intros K. apply obnd_ok in K as ([l m1] & K & [= <- <-]). apply (proj1 (omap_err_ok _ _ _)) in K. apply IHs in K as (u & R & U & ->).
      exists u. split; [now constructor|auto]. }
  assert (Arg : forall a m b m', fresh_arg a -> fill_arg (parse_block d) ab_op_code a m = Some (Ok (b, m')) ->
            exists u, reads_arg (mg m) a b u /\ used m u /\ m' = mdel u m).
  { intros a m b m' F K. destruct a as [n v|n v|n v|n v]; cbn [fresh_arg] in F; cbn [fill_arg] in K; apply obnd_ok in K as ([w m1] & K & [= <- <-]).
    - destruct F as [[t ->]|[id ->]]; cbn [fill_value] in K.
      + injection K as <- <-. exists []. split; [constructor|]. split; [apply used_nil|now rewrite mdel_nil].
      + apply obnd_ok in K as ([x y] & K & [= <- <-]). unfold get_block in K. apply (proj1 (omap_err_ok _ _ _)) in K. apply IHb in K as (u & R & U & ->).
        exists u. split; [now constructor|auto].
    - destruct F as [[t ->]|[id ->]]; cbn [fill_value] in K.
      + injection K as <- <-. exists []. split; [constructor|]. split; [apply used_nil|now rewrite mdel_nil].
      + apply obnd_ok in K as ([x y] & K & [= <- <-]). unfold get_block in K. apply (proj1 (omap_err_ok _ _ _)) in K. apply IHb in K as (u & R & U & ->).
        exists u. split; [now constructor|auto].
    - destruct F as [[t ->]|[id ->]]; cbn [fill_boolean] in K.
      + injection K as <- <-. exists []. split; [constructor|]. split; [apply used_nil|now rewrite mdel_nil].
      + apply obnd_ok in K as ([x y] & K & [= <- <-]). unfold get_block in K. apply (proj1 (omap_err_ok _ _ _)) in K. apply IHb in K as (u & R & U & ->).
        exists u. split; [|auto]. destruct (str_eqb_spec (ab_op_code x) (lit "true")); [now apply rd_true with x|].
        destruct (str_eqb_spec (ab_op_code x) (lit "false")); [now apply rd_false with x|]. now apply rd_boolean_block.
    - destruct F as [t ->]; cbn [fill_value] in K. injection K as <- <-. exists []. split; [constructor|]. split; [apply used_nil|now rewrite mdel_nil]. }
  assert (Its : forall items m i' m', Forall fresh_arg (get_args items) -> apply_blocks (parse_block d) ab_op_code items m = Some (Ok (i', m')) ->
            exists u, reads_items (mg m) items i' u /\ used m u /\ m' = mdel u m).
  { induction items as [|[t|a] items IH]; intros m i' m' F K; cbn [apply_blocks] in K.
    - injection K as <- <-. exists []. split; [constructor|]. split; [apply used_nil|now rewrite mdel_nil].
    - apply obnd_ok in K as ([is m1] & K & [= <- <-]). apply IH in K as (u & R & U & ->); [|exact F]. exists u. split; [now constructor|auto].
    - cbn [get_args flat_map app] in F. inversion F; subst. apply obnd_ok in K as ([b m1] & K1 & K). apply obnd_ok in K as ([is m2] & K2 & [= <- <-]).
      apply Arg in K1 as (v & Rv & Uv & ->); auto. apply IH in K2 as (u & Ru & Uu & ->); auto. exists (v ++ u). split.
      + constructor; auto. revert Ru. apply reads_mono. apply mg_mdel.
      + split; [now apply used_app|now rewrite mdel_app]. }
  split; intros id m b m' K.
  - rewrite parse_block_S in K. apply obnd_ok in K as (pb & Hg & K). apply (proj1 (ok_or_ok _ _ _)) in Hg.
    apply obnd_ok in K as ([s1 m1] & K1 & K). apply obnd_ok in K as ([s2 m2] & K2 & K). apply obnd_ok in K as (items & K3 & K).
    apply (proj1 (map_err_ok _ _ _)) in K3.
    apply obnd_ok in K as ([i' m3] & K4 & K). apply obnd_ok in K as (ty & K5 & [= <- <-]). apply (proj1 (map_err_ok _ _ _)) in K5. apply type_text_iff in K5.
    apply (proj1 (omap_err_ok _ _ _)) in K4. rewrite bremove_mdel in K1.
    apply Sub in K1 as (u1 & R1 & U1 & ->). apply Sub in K2 as (u2 & R2 & U2 & ->).
    pose proof K3 as K3'. unfold content_parse in K3'. apply (proj1 (items_parse_iff _ _ _)) in K3'.
    apply Its in K4 as (u3 & R3 & U3 & ->); [|now apply gives_fresh in K3'].
    exists (id :: u1 ++ u2 ++ u3). split; [|split].
    + eapply rd_block; eauto.
      * revert R1. apply reads_mono. intros k p. apply mg_mdel.
      * revert R2. apply reads_mono. intros k p X. now apply mg_mdel, mg_mdel in X.
      * apply words_split. reflexivity.
      * revert R3. apply reads_mono. intros k p X. now apply mg_mdel, mg_mdel, mg_mdel in X.
    + change (id :: u1 ++ u2 ++ u3) with ([id] ++ u1 ++ u2 ++ u3). apply used_app.
      { split; [repeat constructor; auto|]. intros k [<-|[]]. congruence. }
      apply used_app; auto. now apply used_app.
    + change (id :: u1 ++ u2 ++ u3) with ([id] ++ u1 ++ u2 ++ u3). now rewrite !mdel_app.
  - rewrite parse_blocks_S in K. apply obnd_ok in K as (pb & Hg & K). apply (proj1 (ok_or_ok _ _ _)) in Hg. apply obnd_ok in K as ([x m1] & K1 & K).
    apply IHb in K1 as (u & R & U & ->). destruct (Z.ltb_spec (bl_next_block pb) 0).
    + injection K as <- <-. exists u. split; [eapply rd_last; eauto|auto].
    + apply obnd_ok in K as ([bs m2] & K2 & [= <- <-]). apply IHs in K2 as (v & Rv & Uv & ->). exists (u ++ v). split; [|split].
      * eapply rd_next; eauto. revert Rv. apply reads_mono. intros k p. apply mg_mdel.
      * now apply used_app.
      * now rewrite mdel_app.
Qed.

(** ** ... and every reading is found *)
Definition ev (P : nat -> Prop) : Prop := exists d0, forall d, (d0 <= d)%nat -> P d.
Lemma ev_and P Q : ev P -> ev Q -> ev (fun d => P d /\ Q d).
Proof. intros [a A] [b B]. exists (max a b). intros d H. split; [apply A|apply B]; lia. Qed.
Lemma ev_impl (P Q : nat -> Prop) : (forall d, P d -> Q d) -> ev P -> ev Q.
Proof. intros H [a A]. exists a. auto. Qed.
Lemma ev_S (P : nat -> Prop) : ev (fun d => P (S d)) -> ev P.
Proof. intros [a A]. exists (S a). intros d H. destruct d; [lia|]. apply A. lia. Qed.
Definition avail (G : N -> block -> Prop) (m : bmap) (u : list N) : Prop := forall k p, In k u -> G k p -> bget k m = Some p.
Lemma avail_l G m u v : avail G m (u ++ v) -> avail G m u.
Proof. intros H k p K. apply H. apply in_app_iff. auto. Qed.
Lemma avail_r G m u v : NoDup (u ++ v) -> avail G m (u ++ v) -> avail G (mdel u m) v.
Proof.
  intros N H k p K Gk. apply NoDup_app_elim in N as (_ & _ & D). rewrite bget_mdel_out; [apply H; auto; apply in_app_iff; auto|].
  intros X. now apply (D k).
Qed.
Lemma parse_complete G :
  (forall id b u, reads_block G id b u -> forall m, avail G m u -> NoDup u -> ev (fun d => parse_block d id m = Some (Ok (b, mdel u m)))) /\
  (forall z s u, reads_sub G z s u -> forall m, avail G m u -> NoDup u -> ev (fun d => forall err, sub_step d err z m = Some (Ok (s, mdel u m)))) /\
  (forall id l u, reads_stack G id l u -> forall m, avail G m u -> NoDup u -> ev (fun d => parse_blocks d id m = Some (Ok (l, mdel u m)))) /\
  (forall h i u, reads_items G h i u -> forall m, avail G m u -> NoDup u -> ev (fun d => apply_blocks (parse_block d) ab_op_code h m = Some (Ok (i, mdel u m)))) /\
  (forall a b u, reads_arg G a b u -> forall m, avail G m u -> NoDup u -> ev (fun d => fill_arg (parse_block d) ab_op_code a m = Some (Ok (b, mdel u m)))).
Proof.
  apply (reads_ind G
    (fun id b u _ => forall m, avail G m u -> NoDup u -> ev (fun d => parse_block d id m = Some (Ok (b, mdel u m))))
    (fun z s u _ => forall m, avail G m u -> NoDup u -> ev (fun d => forall err, sub_step d err z m = Some (Ok (s, mdel u m))))
    (fun id l u _ => forall m, avail G m u -> NoDup u -> ev (fun d => parse_blocks d id m = Some (Ok (l, mdel u m))))
    (fun h i u _ => forall m, avail G m u -> NoDup u -> ev (fun d => apply_blocks (parse_block d) ab_op_code h m = Some (Ok (i, mdel u m))))
    (fun a b u _ => forall m, avail G m u -> NoDup u -> ev (fun d => fill_arg (parse_block d) ab_op_code a m = Some (Ok (b, mdel u m))))).
  - intros id pb ws holes s1 u1 s2 u2 items u3 ty Hg R1 I1 R2 I2 W Gv R3 I3 T m A N. apply ev_S.
    change (id :: u1 ++ u2 ++ u3) with ([id] ++ (u1 ++ (u2 ++ u3))) in *.
    pose proof (A id pb (or_introl eq_refl) Hg) as Hid.
    pose proof (avail_r _ _ _ _ N A) as A1. apply NoDup_app_elim in N as (_ & N1 & _).
    pose proof (avail_l _ _ _ _ A1) as A1l. pose proof (avail_r _ _ _ _ N1 A1) as A2. apply NoDup_app_elim in N1 as (N1 & N2 & _).
    pose proof (avail_l _ _ _ _ A2) as A2l. pose proof (avail_r _ _ _ _ N2 A2) as A3. apply NoDup_app_elim in N2 as (N2 & N3 & _).
    pose proof (ev_and _ _ (I1 _ A1l N1) (ev_and _ _ (I2 _ A2l N2) (I3 _ A3 N3))) as E. revert E. apply ev_impl. intros d (E1 & E2 & E3).
    rewrite parse_block_S, Hid. cbn [ok_or obnd]. rewrite bremove_mdel, E1. cbn [obnd]. rewrite E2. cbn [obnd].
    unfold content_parse. apply (proj1 (words_split _ _)) in W. rewrite <- W. apply (proj2 (items_parse_iff _ _ _)) in Gv. rewrite Gv. cbn [map_err obnd].
    rewrite E3. cbn [omap_err option_map map_err obnd]. rewrite (proj2 (type_text_iff _ _ _) T). cbn [map_err obnd]. now rewrite !mdel_app.
  - intros z Hz m _ _. exists 0%nat. intros d _ err. unfold sub_step. rewrite mdel_nil. now replace (z <? 0)%Z with true by lia.
  - intros z l u Hz R I m A N. generalize (I m A N). apply ev_impl. intros d E err. unfold sub_step. replace (z <? 0)%Z with false by lia.
    rewrite E. reflexivity.
  - intros id pb b u Hg Hn R I m A N. apply ev_S. generalize (I m A N). apply ev_impl. intros d E. rewrite parse_blocks_S.
    assert (Hid : In id u) by (inversion R; now left). rewrite (A id pb Hid Hg). cbn [ok_or obnd]. rewrite E. cbn [obnd].
    now replace (bl_next_block pb <? 0)%Z with true by lia.
  - intros id pb b u l v Hg Hn R I Rs Is m A N. apply ev_S.
    pose proof (avail_l _ _ _ _ A) as Al. pose proof (avail_r _ _ _ _ N A) as Ar. apply NoDup_app_elim in N as (N1 & N2 & _).
    generalize (ev_and _ _ (I m Al N1) (Is _ Ar N2)). apply ev_impl. intros d [E1 E2]. rewrite parse_blocks_S.
    assert (Hid : In id u) by (inversion R; now left). rewrite (Al id pb Hid Hg). cbn [ok_or obnd]. rewrite E1. cbn [obnd].
    replace (bl_next_block pb <? 0)%Z with false by lia. rewrite E2. cbn [obnd]. now rewrite mdel_app.
  - intros m _ _. exists 0%nat. intros d _. now rewrite mdel_nil.
  - intros t h i u R I m A N. generalize (I m A N). apply ev_impl. intros d E. cbn [apply_blocks]. now rewrite E.
  - intros a b v h i u Ra Ia R I m A N.
    pose proof (avail_l _ _ _ _ A) as Al. pose proof (avail_r _ _ _ _ N A) as Ar. apply NoDup_app_elim in N as (N1 & N2 & _).
    generalize (ev_and _ _ (Ia m Al N1) (I _ Ar N2)). apply ev_impl. intros d [E1 E2]. cbn [apply_blocks]. rewrite E1. cbn [obnd]. rewrite E2. cbn [obnd].
    now rewrite mdel_app.
  - intros n t m _ _. exists 0%nat. intros d _. now rewrite mdel_nil.
  - intros n t m _ _. exists 0%nat. intros d _. now rewrite mdel_nil.
  - intros n t m _ _. exists 0%nat. intros d _. now rewrite mdel_nil.
  - intros n t m _ _. exists 0%nat. intros d _. now rewrite mdel_nil.
  - intros n id b u R I m A N. generalize (I m A N). apply ev_impl. intros d E. cbn [fill_arg fill_value]. unfold get_block. now rewrite E.
  - intros n id b u R I m A N. generalize (I m A N). apply ev_impl. intros d E. cbn [fill_arg fill_value]. unfold get_block. now rewrite E.
  - intros n id b u R I Op m A N. generalize (I m A N). apply ev_impl. intros d E. cbn [fill_arg fill_boolean]. unfold get_block. rewrite E.
    cbn [omap_err option_map map_err obnd]. rewrite Op. reflexivity.
  - intros n id b u R I Op m A N. generalize (I m A N). apply ev_impl. intros d E. cbn [fill_arg fill_boolean]. unfold get_block. rewrite E.
    cbn [omap_err option_map map_err obnd]. rewrite Op. reflexivity.
  - intros n id b u R I Ot Of m A N. generalize (I m A N). apply ev_impl. intros d E. cbn [fill_arg fill_boolean]. unfold get_block. rewrite E.
    cbn [omap_err option_map map_err obnd]. apply str_eqb_neq in Ot, Of. now rewrite Ot, Of.
Qed.
