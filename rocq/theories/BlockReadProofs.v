(** Proofs about whole containers: what [blocks_try_from] reads, that it stops, and when it panics ([A_Block.v]). *)
From Verif Require Import Base Spec Str Dec Flt M_Color M_Logic A_Block SpecBlock LogicMapProofs BlockContentProofs BlockProofs.
From Coq Require Import ZifyNat ZifyN ZifyBool.

(** ** The map of raw blocks *)
Definition keyed (l : list block) (kvs : bmap) : Prop := Forall2 (fun b kv => parse_u32 (bl_id b) = Some (fst kv) /\ snd kv = b) l kvs.
Lemma Forall2_len {A B} (P : A -> B -> Prop) l m : Forall2 P l m -> length l = length m.
Proof. intros H. induction H; cbn; auto. Qed.
Lemma keyed_cons b l kvs : keyed (b :: l) kvs -> exists n r, kvs = (n, b) :: r /\ parse_u32 (bl_id b) = Some n /\ keyed l r.
Proof. intros K. inversion K as [|x [n v] y r [P V] K']. cbn in P, V. subst. eauto. Qed.
Lemma keyed_cons_r n v l r : keyed l ((n, v) :: r) -> exists l', l = v :: l' /\ parse_u32 (bl_id v) = Some n /\ keyed l' r.
Proof. intros K. inversion K as [|x [n' v'] y r' [P V] K']. cbn in P, V. subst. eauto. Qed.
Lemma to_map_ok l acc m : to_map l acc = Ok m <-> exists kvs, keyed l kvs /\ m = fold_left (fun m kv => binsert (fst kv) (snd kv) m) kvs acc.
Proof.
  revert acc. induction l as [|b l IH]; intros acc; cbn [to_map].
  - split; [intros [= <-]; exists []; split; [constructor|reflexivity]|]. intros (kvs & K & ->). inversion K. reflexivity.
  - split.
    + destruct (parse_u32 (bl_id b)) as [n|] eqn:P; cbn [ok_or bind]; [|discriminate]. intros H. apply IH in H as (kvs & K & ->).
      exists ((n, b) :: kvs). split; [|reflexivity]. constructor; [split; auto|auto].
    + intros (kvs & K & ->). apply keyed_cons in K as (n & kvs' & -> & P & K'). rewrite P. cbn [ok_or bind fold_left fst snd].
      apply IH. eauto.
Qed.
Lemma to_map_nopanic l acc : to_map l acc <> Panic.
Proof. revert acc. induction l as [|b l IH]; intros acc; cbn [to_map]; [discriminate|]. destruct (parse_u32 (bl_id b)); cbn [ok_or bind]; [apply IH|discriminate]. Qed.
Fixpoint dedup (l : bmap) : bmap :=
  match l with [] => [] | (k, b) :: r => if existsb (N.eqb k) (map fst r) then dedup r else (k, b) :: dedup r end.
Lemma fold_binsert kvs acc : fold_left (fun m kv => binsert (fst kv) (snd kv) m) kvs acc = mdel (map fst kvs) acc ++ dedup kvs.
Proof.
  revert acc. induction kvs as [|[k b] r IH]; intros acc; cbn [fold_left map dedup fst snd].
  - now rewrite mdel_nil, app_nil_r.
  - rewrite IH. unfold binsert, linsert. change (lremove N.eqb k acc) with (bremove k acc). rewrite bremove_mdel.
    change (k :: map fst r) with ([k] ++ map fst r). rewrite mdel_app.
    assert (F : forall u x y, mdel u (x ++ y) = mdel u x ++ mdel u y) by (intros; unfold mdel; apply filter_app). rewrite F, <- app_assoc. f_equal.
    unfold mdel at 1. cbn [filter fst]. destruct (existsb (N.eqb k) (map fst r)); reflexivity.
Qed.
Lemma dedup_length l : (length (dedup l) <= length l)%nat.
Proof. induction l as [|[k b] r IH]; cbn [dedup length]; [lia|]. destruct (existsb _ _); cbn [length]; lia. Qed.
Lemma dedup_get l k b : bget k (dedup l) = Some b <-> exists a r, l = a ++ (k, b) :: r /\ ~ In k (map fst r).
Proof.
  induction l as [|[k' b'] l IH]; cbn [dedup].
  - split; [discriminate|]. intros (a & r & E & _). destruct a; discriminate.
  - split.
    + destruct (existsb (N.eqb k') (map fst l)) eqn:X.
      * intros H. apply IH in H as (a & r & -> & Hr). exists ((k', b') :: a), r. auto.
      * unfold bget. cbn [lget]. destruct (N.eqb_spec k k') as [->|Hk].
        { intros [= ->]. exists [], l. split; [reflexivity|]. intros I. apply existsb_eqb in I. congruence. }
        intros H. apply IH in H as (a & r & -> & Hr). exists ((k', b') :: a), r. auto.
    + intros (a & r & E & Hr). destruct a as [|x a]; cbn [app] in E.
      * injection E as -> -> ->. destruct (existsb (N.eqb k) (map fst r)) eqn:X; [apply existsb_eqb in X; tauto|]. unfold bget. cbn [lget]. now rewrite N.eqb_refl.
      * injection E as <- ->. assert (H : bget k (dedup (a ++ (k, b) :: r)) = Some b) by (apply IH; eauto).
        destruct (existsb (N.eqb k') (map fst (a ++ (k, b) :: r))) eqn:X; auto. unfold bget. cbn [lget]. destruct (N.eqb_spec k k') as [->|]; auto.
        exfalso. assert (In k' (map fst (a ++ (k', b) :: r))) as Y by (rewrite map_app; apply in_app_iff; right; now left).
        apply existsb_eqb in Y. congruence.
Qed.
Lemma keyed_map l kvs : keyed l kvs -> map (fun b => parse_u32 (bl_id b)) l = map (fun kv => Some (fst kv)) kvs /\ map snd kvs = l.
Proof. intros H. induction H as [|b [k v] l kvs [P V] H [IH1 IH2]]; cbn; auto. cbn in *. subst. now rewrite P, IH1. Qed.
Lemma keyed_exists l : Forall (fun b => parse_u32 (bl_id b) <> None) l -> exists kvs, keyed l kvs.
Proof.
  intros H. induction H as [|b l H F (kvs & IH)]; [exists []; constructor|]. destruct (parse_u32 (bl_id b)) as [n|] eqn:P; [|congruence].
  exists ((n, b) :: kvs). constructor; auto.
Qed.
Lemma keyed_all l kvs : keyed l kvs -> Forall (fun b => parse_u32 (bl_id b) <> None) l.
Proof. intros H. induction H as [|b [k v] l kvs [P V] H IH]; constructor; auto. congruence. Qed.
Lemma keyed_app_inv kvs1 kvs2 l : keyed l (kvs1 ++ kvs2) -> exists l1 l2, l = l1 ++ l2 /\ keyed l1 kvs1 /\ keyed l2 kvs2.
Proof. intros H. apply Forall2_app_inv_r in H as (l1 & l2 & H1 & H2 & ->). eauto. Qed.
Lemma keyed_notin l kvs k : keyed l kvs -> ~ In k (map fst kvs) <-> Forall (fun x => parse_u32 (bl_id x) <> Some k) l.
Proof.
  intros H. induction H as [|b [k' v] l kvs [P V] H IH]; cbn [map fst In] in *; [split; auto; constructor|].
  split.
  - intros N. constructor; [rewrite P; intros [= ->]; tauto|]. apply IH. tauto.
  - intros F. inversion F; subst. rewrite P in H2. apply IH in H3. intros [->|]; [congruence|tauto].
Qed.
Lemma keyed_graph c kvs k pb : keyed c kvs -> graph c k pb <-> bget k (dedup kvs) = Some pb.
Proof.
  intros K. rewrite dedup_get. split.
  - intros (a & r & -> & P & F). apply Forall2_app_inv_l in K as (ka & kr & K1 & K2 & ->). apply keyed_cons in K2 as (k' & kr' & -> & P' & K3).
    rewrite P in P'. injection P' as <-. exists ka, kr'. split; [reflexivity|]. now apply (keyed_notin r).
  - intros (a & r & -> & N). apply keyed_app_inv in K as (l1 & l2 & -> & K1 & K2). apply keyed_cons_r in K2 as (l3 & -> & P & K3).
    exists l1, l3. split; [reflexivity|]. split; [auto|]. now apply (keyed_notin l3 r).
Qed.
Lemma dedup_head kvs k b m : dedup kvs = (k, b) :: m -> exists a r, kvs = a ++ (k, b) :: r /\ ~ In k (map fst r) /\
  forall a1 x a2, a = a1 ++ x :: a2 -> In (fst x) (map fst (a2 ++ (k, b) :: r)).
Proof.
  induction kvs as [|[k' b'] kvs IH]; cbn [dedup]; [discriminate|]. destruct (existsb (N.eqb k') (map fst kvs)) eqn:X.
  - intros H. apply IH in H as (a & r & -> & N & F). exists ((k', b') :: a), r. split; [reflexivity|]. split; [auto|].
    intros a1 x a2 E. destruct a1 as [|y a1]; cbn [app] in E.
    + injection E as <- <-. now apply existsb_eqb in X.
    + injection E as <- ->. eauto.
  - intros [= -> -> <-]. exists [], kvs. split; [reflexivity|]. split; [intros I; apply existsb_eqb in I; congruence|]. intros a1 x a2 E. destruct a1; discriminate.
Qed.
Lemma dedup_head_conv a k b r : ~ In k (map fst r) -> (forall a1 x a2, a = a1 ++ x :: a2 -> In (fst x) (map fst (a2 ++ (k, b) :: r))) ->
  exists m, dedup (a ++ (k, b) :: r) = (k, b) :: m.
Proof.
  intros N. induction a as [|[k' b'] a IH]; intros F; cbn [app dedup].
  - destruct (existsb (N.eqb k) (map fst r)) eqn:X; [apply existsb_eqb in X; tauto|]. eauto.
  - pose proof (F [] (k', b') a eq_refl) as I. cbn [fst] in I. apply existsb_eqb in I. rewrite I. apply IH. intros a1 x a2 ->. apply (F ((k', b') :: a1) x a2 eq_refl).
Qed.
Lemma keyed_start c kvs k : keyed c kvs -> start c k <-> exists b m, dedup kvs = (k, b) :: m.
Proof.
  intros K. split.
  - intros (a & pb & r & -> & P & F & S). apply Forall2_app_inv_l in K as (ka & kr & K1 & K2 & ->). apply keyed_cons in K2 as (k' & kr' & -> & P' & K3).
    rewrite P in P'. injection P' as <-. exists pb. apply dedup_head_conv; [now apply (keyed_notin r)|].
    intros a1 x a2 ->. apply keyed_app_inv in K1 as (l1 & l2 & -> & K1 & K1'). destruct x as [kx vx]. apply keyed_cons_r in K1' as (l3 & -> & Px & K4). cbn [fst].
    destruct (S l1 vx l3 eq_refl) as (y & Iy & Ey). rewrite Px in Ey.
    assert (K5 : keyed (l3 ++ pb :: r) (a2 ++ (k, pb) :: kr')) by (apply Forall2_app; auto).
    destruct (existsb (N.eqb kx) (map fst (a2 ++ (k, pb) :: kr'))) eqn:X; [now apply existsb_eqb in X|]. exfalso.
    assert (NX : ~ In kx (map fst (a2 ++ (k, pb) :: kr'))) by (intros I; apply existsb_eqb in I; congruence).
    apply (keyed_notin _ _ _ K5) in NX. rewrite Forall_forall in NX. now apply (NX y).
  - intros (b & m & H). apply dedup_head in H as (ka & kr & -> & N & F). apply keyed_app_inv in K as (l1 & l2 & -> & K1 & K2).
    apply keyed_cons_r in K2 as (l3 & -> & P & K3). exists l1, b, l3. split; [reflexivity|]. split; [auto|].
    split; [now apply (keyed_notin l3 kr)|]. intros a1 x a2 ->. apply Forall2_app_inv_l in K1 as (k1 & k2 & K1 & K1' & ->).
    apply keyed_cons in K1' as (kx & k3 & -> & Px & K4). specialize (F k1 (kx, x) k3 eq_refl). cbn [fst] in F.
    apply in_map_iff in F as ([ky y] & E & Iy). cbn [fst] in E. subst ky.
    assert (K5 : keyed (a2 ++ b :: l3) (k3 ++ (k, b) :: kr)) by (apply Forall2_app; auto).
    apply (In_nth_error) in Iy as (i & Hi). destruct (nth_error (a2 ++ b :: l3) i) as [z|] eqn:Z.
    + assert (Q : parse_u32 (bl_id z) = Some kx).
      { clear - K5 Hi Z. revert i Hi Z. induction K5 as [|u [kk vv] l kvs [P V] K IH]; intros [|i]; cbn [nth_error]; try discriminate.
        - intros [= -> ->] [= ->]. exact P.
        - apply IH. }
      exists z. split; [now apply nth_error_In in Z|]. congruence.
    + apply nth_error_None in Z. pose proof (Forall2_len _ _ _ K5) as L. assert (i < length (k3 ++ (k, b) :: kr))%nat by (apply nth_error_Some; congruence). lia.
Qed.

(** ** Main results about [try_from] *)
Lemma try_from_depth_none c d : (enough c <= d)%nat -> try_from_depth d c <> None.
Proof.
  intros L H. unfold try_from_depth in H. apply obnd_none in H as [H|(m & Hm & H)]; [discriminate|].
  assert (Hm' : to_map c [] = Ok m) by congruence. apply to_map_ok in Hm' as (kvs & K & E). rewrite fold_binsert in E. cbn [mdel filter app] in E.
  destruct m as [|[id b] m]; [discriminate|]. apply obnd_none in H as [H|([bs m'] & _ & H)]; [|discriminate].
  revert H. apply parse_terminates. rewrite E. pose proof (dedup_length kvs) as DL. pose proof (Forall2_len _ _ _ K) as FL. unfold enough in L.
  lia.
Qed.
Lemma try_from_depth_mono c d d' r : (d <= d')%nat -> try_from_depth d c = Some r -> try_from_depth d' c = Some r.
Proof.
  intros L. unfold try_from_depth. destruct (to_map c []) as [m| |]; cbn [obnd]; auto. destruct m as [|[id b] m]; auto.
  destruct (parse_blocks d id ((id, b) :: m)) as [x|] eqn:E; [|discriminate]. now rewrite (parse_blocks_mono d d' _ _ _ L E).
Qed.
Lemma try_from_total c d : (enough c <= d)%nat -> try_from_depth d c = Some (blocks_try_from c).
Proof.
  intros L. unfold blocks_try_from. destruct (try_from_depth (enough c) c) as [r|] eqn:E; [|now apply try_from_depth_none in E].
  now apply (try_from_depth_mono _ _ _ _ L).
Qed.
Lemma try_from_iff c t : blocks_try_from c = Ok t <-> exists u, reads_container c t u /\ NoDup u.
Proof.
  pose proof (try_from_total c) as T. split.
  - intros H. specialize (T (enough c) (Nat.le_refl _)). rewrite H in T. unfold try_from_depth in T. apply obnd_ok in T as (m & Hm & T).
    assert (Hm' : to_map c [] = Ok m) by congruence. apply to_map_ok in Hm' as (kvs & K & E). rewrite fold_binsert in E. cbn [mdel filter app] in E.
    destruct m as [|[id b] m].
    + injection T as <-. assert (kvs = []).
      { destruct kvs as [|x r] using rev_ind; auto. exfalso. symmetry in E. destruct x as [k b].
        assert (X : bget k (dedup (r ++ [(k, b)])) = Some b) by (apply dedup_get; exists r, []; auto). rewrite E in X. discriminate. }
      subst kvs. inversion K; subst. exists []. split; [split; [constructor|left; auto]|constructor].
    + apply obnd_ok in T as ([bs m'] & T & [= <-]). apply parse_sound in T as (u & R & [Nu _] & _). exists u. split; auto.
      split; [now apply keyed_all in K|right]. exists id. split; [apply (keyed_start c kvs); auto; eauto|].
      revert R. apply reads_mono. intros k p X. apply (keyed_graph c kvs); auto. rewrite <- E. exact X.
  - intros (u & [F R] & Nu). destruct (keyed_exists c F) as (kvs & K).
    assert (Hm : to_map c [] = Ok (dedup kvs)) by (apply to_map_ok; exists kvs; split; auto; now rewrite fold_binsert).
    destruct R as [(-> & -> & ->)|(id & S & R)]; [reflexivity|].
    apply (keyed_start c kvs) in S as (b & m & E); auto.
    assert (A : avail (graph c) (dedup kvs) u) by (intros k p _ G; now apply (keyed_graph c kvs)).
    destruct (proj1 (proj2 (proj2 (parse_complete _))) _ _ _ R _ A Nu) as (d0 & D).
    specialize (T (max (enough c) d0) ltac:(lia)). unfold try_from_depth in T. rewrite Hm in T. cbn [obnd] in T. rewrite E in T, D.
    rewrite D in T by lia. cbn [obnd] in T. congruence.
Qed.

(** ** Panics *)
Lemma apply_blocks_panic {S E} (get : N -> S -> out E (ablock * S)) (I : S -> Prop) :
  (forall id s b s', I s -> get id s = Some (Ok (b, s')) -> I s') -> (forall id s, I s -> get id s <> Some Panic) ->
  forall items s, I s -> apply_blocks get ab_op_code items s <> Some Panic.
Proof.
  intros HI HN. induction items as [|[t|a] items IH]; intros s Hs; cbn [apply_blocks].
  - discriminate.
  - intros K. apply obnd_panic in K as [K|([is s1] & _ & K)]; [|discriminate]. now apply IH in K.
  - intros K.
    assert (V : forall T (v : arg_value ablock T), fill_value get v s <> Some Panic).
    { intros T v. destruct v; cbn [fill_value]; try discriminate. intros X. apply obnd_panic in X as [X|([x y] & _ & X)]; [|discriminate].
      apply (proj1 (omap_err_panic _ _)) in X. now apply HN in X. }
    assert (W : forall T (v w : arg_value ablock T) s', fill_value get v s = Some (Ok (w, s')) -> I s').
    { intros T v w s'. destruct v; cbn [fill_value]; try (intros [= <- <-]; auto).
      intros X. apply obnd_ok in X as ([x y] & X & [= <- <-]). unfold get_block in X. apply (proj1 (omap_err_ok _ _ _)) in X. eauto. }
    apply obnd_panic in K as [K|([b s1] & K1 & K)].
    + destruct a as [n v|n v|n v|n v]; cbn [fill_arg] in K; apply obnd_panic in K as [K|([x y] & _ & K)]; try discriminate; try (now apply V in K).
      destruct v; cbn [fill_boolean] in K; try discriminate. apply obnd_panic in K as [X|([x y] & _ & X)]; [|discriminate].
      apply (proj1 (omap_err_panic _ _)) in X. now apply HN in X.
    + apply obnd_panic in K as [K|([is s2] & _ & K)]; [|discriminate]. revert K. apply IH.
      destruct a as [n v|n v|n v|n v]; cbn [fill_arg] in K1; apply obnd_ok in K1 as ([w s3] & K1 & [= <- <-]); try (eapply W; eauto; fail).
      destruct v; cbn [fill_boolean] in K1; try (injection K1 as <- <-; auto).
      apply obnd_ok in K1 as ([x y] & X & [= <- <-]). unfold get_block in X. apply (proj1 (omap_err_ok _ _ _)) in X. eauto.
Qed.
Lemma mdel_incl u m : incl (mdel u m) m.
Proof. intros x H. unfold mdel in H. now apply filter_In in H. Qed.
Lemma bget_in k m pb : bget k m = Some pb -> In (k, pb) m.
Proof.
  unfold bget. induction m as [|[k' v] m IH]; cbn [lget]; [discriminate|]. destruct (N.eqb_spec k k') as [->|]; [intros [= ->]; now left|].
  intros H. right. auto.
Qed.
Lemma block_type_from_nopanic s n : block_type_from s n <> Panic.
Proof.
  unfold block_type_from. cbv zeta. repeat match goal with |- context [if ?b then _ else _] => destruct b; try discriminate end.
  destruct (list_item_from_str n); discriminate.
Qed.
Definition clean_specs (m : bmap) : Prop := forall k pb, In (k, pb) m -> forall args, @content_parse ablock (bl_spec pb) args <> Panic.
Lemma parse_nopanic d : (forall id m, clean_specs m -> parse_block d id m <> Some Panic) /\ (forall id m, clean_specs m -> parse_blocks d id m <> Some Panic).
Proof.
  assert (Cl : forall u m, clean_specs m -> clean_specs (mdel u m)) by (intros u m H k pb I; apply (H k); now apply mdel_incl in I).
  induction d as [|d [IHb IHs]]; [split; discriminate|].
  assert (Sub : forall err z m, clean_specs m -> sub_step d err z m <> Some Panic).
  { intros err z m C. unfold sub_step. destruct (z <? 0)%Z; [discriminate|]. intros K. apply obnd_panic in K as [K|([l m1] & _ & K)]; [|discriminate].
    apply (proj1 (omap_err_panic _ _)) in K. now apply IHs in K. }
  assert (SubC : forall err z m s m', clean_specs m -> sub_step d err z m = Some (Ok (s, m')) -> clean_specs m').
  { intros err z m s m' C. unfold sub_step. destruct (z <? 0)%Z; [now intros [= <- <-]|]. intros K. apply obnd_ok in K as ([l m1] & K & [= <- <-]).
    apply (proj1 (omap_err_ok _ _ _)) in K. apply parse_sound in K as (u & _ & _ & ->). auto. }
  split; intros id m C K.
  - rewrite parse_block_S in K. apply obnd_panic in K as [K|(pb & Hg & K)]; [destruct (bget id m); discriminate|]. apply (proj1 (ok_or_ok _ _ _)) in Hg.
    rewrite bremove_mdel in K. apply bget_in in Hg.
    apply obnd_panic in K as [K|([s1 m1] & K1 & K)]; [revert K; apply Sub; auto|]. apply SubC in K1; auto.
    apply obnd_panic in K as [K|([s2 m2] & K2 & K)]; [revert K; apply Sub; auto|]. apply SubC in K2; auto.
    apply obnd_panic in K as [K|(items & _ & K)].
    { specialize (C id pb Hg (bl_parameters pb)). destruct (content_parse _ _); try discriminate. now apply C. }
    apply obnd_panic in K as [K|([i' m3] & _ & K)].
    { apply (proj1 (omap_err_panic _ _)) in K. revert K. apply (apply_blocks_panic _ clean_specs); auto.
      intros id' s b s' Cs Hb. apply parse_sound in Hb as (u & _ & _ & ->). auto. }
    apply obnd_panic in K as [K|(ty & _ & K)]; [|discriminate].
    pose proof (block_type_from_nopanic (bl_type pb) (bl_type_name pb)) as T. destruct (block_type_from _ _); try discriminate. now apply T.
  - rewrite parse_blocks_S in K. apply obnd_panic in K as [K|(pb & Hg & K)]; [destruct (bget id m); discriminate|].
    apply obnd_panic in K as [K|([b m1] & K1 & K)]; [revert K; apply IHb; auto|]. apply parse_sound in K1 as (u & _ & _ & ->).
    destruct (bl_next_block pb <? 0)%Z; [discriminate|]. apply obnd_panic in K as [K|([bs m2] & _ & K)]; [|discriminate]. revert K. apply IHs. auto.
Qed.
Lemma try_from_panic c : blocks_try_from c = Panic -> exists pb t, In pb c /\ In t (split_on CH_SPACE (bl_spec pb)) /\ bad_token t.
Proof.
  intros H. pose proof (try_from_total c _ (Nat.le_refl _)) as T. rewrite H in T. unfold try_from_depth in T.
  apply obnd_panic in T as [T|(m & Hm & T)]; [injection T as T; now apply to_map_nopanic in T|].
  assert (Hm' : to_map c [] = Ok m) by congruence. apply to_map_ok in Hm' as (kvs & K & E). rewrite fold_binsert in E. cbn [mdel filter app] in E.
  destruct m as [|[id b] m]; [discriminate|]. apply obnd_panic in T as [T|([bs m'] & _ & T)]; [|discriminate].
  (* if every spec is fine there is no panic; otherwise we find a bad one *)
  assert (Dec : forall l, (exists pb t, In pb l /\ In t (split_on CH_SPACE (bl_spec pb)) /\ bad_token t) \/
                          forall pb, In pb l -> forall args, @content_parse ablock (bl_spec pb) args <> Panic).
  { induction l as [|pb l [(x & t & I & It & B)|IH]]; [right; intros ? []|left; exists x, t; split; [now right|auto]|].
    assert (D : forall ts, (exists t, In t ts /\ bad_token t) \/ forall t, In t ts -> ~ bad_token t).
    { induction ts as [|t ts [(x & I & B)|IHt]]; [right; intros ? []|left; exists x; split; [now right|auto]|].
      destruct (starts_with [CH_PERCENT] t) eqn:P.
      - destruct (@token_wo_params ablock t) eqn:W.
        1,2: right; intros x [<-|I]; [|auto]; intros B; apply (@bad_token_panics ablock t []) in B as [_ B]; congruence.
        left. exists t. split; [now left|]. now apply token_wo_panic in W.
      - right. intros x [<-|I]; [|auto]. intros B. apply bad_token_param in B. apply (proj1 (not_param t)) in P. tauto. }
    destruct (D (split_on CH_SPACE (bl_spec pb))) as [(t & I & B)|D']; [left; exists pb, t; split; [now left|auto]|].
    right. intros x [<-|I] args X; [|now apply (IH x I args)]. unfold content_parse in X. apply items_parse_panic in X as (t & I & B). now apply (D' t). }
  destruct (Dec c) as [X|X]; auto. exfalso. revert T. apply parse_nopanic. intros k pb I. rewrite E in I. apply X.
  apply keyed_map in K as [_ <-]. apply in_map_iff. exists (k, pb). split; [reflexivity|].
  clear - I. induction kvs as [|[k' b'] r IH]; cbn [dedup] in I; [destruct I|]. destruct (existsb _ _); [right; auto|]. destruct I as [<-|I]; [now left|right; auto].
Qed.
