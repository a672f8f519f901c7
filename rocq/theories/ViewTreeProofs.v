(** Lemmas about the view trees of A_View.v. *)
From Coq Require Import Permutation Lia.
From Verif Require Import Base Str Dec Flt Json M_Color M_View A_View SpecView.

Section AviewInd.
  Context (P : aview -> Prop) (H : forall n ch, Forall P ch -> P (VNode n ch)).
  Fixpoint aview_induct (v : aview) : P v :=
    match v with
    | VNode n ch => H n ch ((fix go (l : list aview) : Forall P l :=
        match l with [] => Forall_nil _ | x :: r => Forall_cons _ (aview_induct x) (go r) end) ch)
    end.
End AviewInd.

Lemma NoDup_app_inv {A} (a b : list A) : NoDup (a ++ b) -> NoDup a /\ NoDup b /\ forall x, In x a -> ~ In x b.
Proof.
  induction a as [|x r IH]; cbn.
  - intros H. repeat split; auto. constructor.
  - intros H. apply NoDup_cons_iff in H as [H1 H2]. rewrite in_app_iff in H1. destruct (IH H2) as (A1 & A2 & A3).
    repeat split; auto.
    + constructor; auto.
    + intros y [<-|Hy]; auto.
Qed.

Lemma nodes_eq n ch : nodes (VNode n ch) = n :: flat_map nodes ch.
Proof.
  unfold nodes. cbn [preorder map vnode]. f_equal. induction ch as [|c r IH]; cbn; auto. now rewrite map_app, IH.
Qed.
Lemma ids_eq n ch : ids (VNode n ch) = vn_id n :: fids ch.
Proof.
  unfold ids, fids. cbn [preorder map vid vnode]. f_equal. induction ch as [|c r IH]; cbn; auto. now rewrite map_app, IH.
Qed.
Lemma ids_nodes v : ids v = map vn_id (nodes v).
Proof. unfold ids, nodes. rewrite map_map. reflexivity. Qed.
Lemma fids_app a b : fids (a ++ b) = fids a ++ fids b.
Proof. unfold fids. apply flat_map_app. Qed.

(** ** find_id *)
Definition has_id (id : str) (v : aview) : bool := str_eqb (vid v) id.
Lemma find_app {A} (f : A -> bool) a b : find f (a ++ b) = match find f a with Some x => Some x | None => find f b end.
Proof. induction a as [|x r IH]; cbn; auto. destruct (f x); auto. Qed.
Lemma find_id_list id l : Forall (fun v => find_id id v = find (has_id id) (preorder v)) l ->
  find_map (find_id id) l = find (has_id id) (flat_map preorder l).
Proof.
  induction 1 as [|x r Hx _ IH]; cbn; auto. rewrite find_app, <- Hx, IH. reflexivity.
Qed.
Lemma find_id_first id v : find_id id v = find (has_id id) (preorder v).
Proof.
  induction v as [n ch IH] using aview_induct. cbn [find_id preorder find]. unfold has_id at 1, vid at 1. cbn [vnode].
  destruct (str_eqb (vn_id n) id); auto. now apply find_id_list.
Qed.

(** ** Positions *)
Lemma find_id_mut_spec id v :
  match find_id_mut id v with
  | None => forall q u, subtree q v = Some u -> vid u <> id
  | Some (w, put) => exists p, subtree p v = Some w /\ vid w = id /\ (forall w', put w' = replace_at p w' v) /\
                     forall q u, subtree q v = Some u -> vid u = id -> q = p \/ before p q
  end.
Proof.
  induction v as [n ch IH] using aview_induct. cbn [find_id_mut].
  destruct (str_eqb_spec (vn_id n) id) as [E|E].
  { exists []. cbn. repeat split; auto. intros [|i q] u; cbn; auto. }
  assert (L : match find_map_mut (find_id_mut id) ch with
              | None => forall i c q u, nth_error ch i = Some c -> subtree q c = Some u -> vid u <> id
              | Some (w, put) => exists i c p, nth_error ch i = Some c /\ subtree p c = Some w /\ vid w = id /\
                  (forall w', put w' = set_nth i (replace_at p w' c) ch) /\
                  forall j d q u, nth_error ch j = Some d -> subtree q d = Some u -> vid u = id -> (j = i /\ q = p) \/ before (i :: p) (j :: q)
              end).
  { induction IH as [|x r Hx Hr IHr]; cbn [find_map_mut].
    - intros [|i]; discriminate.
    - destruct (find_id_mut id x) as [[w put]|].
      + destruct Hx as (p & A & B & C & D). exists 0%nat, x, p. cbn. repeat split; auto.
        * intros w'. now rewrite C.
        * intros [|j] d q u; cbn; intros [= <-] || intros Hj; intros Hq Hu.
          -- destruct (D q u Hq Hu) as [->|]; auto.
          -- right. left. lia.
      + destruct (find_map_mut (find_id_mut id) r) as [[w put]|].
        * destruct IHr as (i & c & p & A & B & C & D & F). exists (S i), c, p. cbn. repeat split; auto.
          -- intros w'. now rewrite D.
          -- intros [|j] d q u; cbn; intros Hj Hq Hu.
             ++ injection Hj as ->. exfalso. eapply Hx; eauto.
             ++ destruct (F j d q u Hj Hq Hu) as [[-> ->]|[G|[G1 G2]]]; auto. right; left; lia.
        * intros [|i] c q u; cbn; intros Hi Hq; [injection Hi as ->; eapply Hx; eauto | eapply IHr; eauto]. }
  destruct (find_map_mut (find_id_mut id) ch) as [[w put]|].
  - destruct L as (i & c & p & A & B & C & D & F). exists (i :: p). cbn. rewrite A. repeat split; auto.
    + intros w'. now rewrite D.
    + intros [|j q] u; cbn.
      * intros [= <-] Hu. contradiction.
      * destruct (nth_error ch j) as [d|] eqn:Ej; [|discriminate]. intros Hq Hu.
        destruct (F j d q u Ej Hq Hu) as [[-> ->]|G]; auto.
  - intros [|j q] u; cbn.
    + intros [= <-]. exact E.
    + destruct (nth_error ch j) as [d|] eqn:Ej; [|discriminate]. intros Hq. eapply L; eauto.
Qed.
Lemma find_id_mut_same id v : option_map fst (find_id_mut id v) = find_id id v.
Proof.
  induction v as [n ch IH] using aview_induct. cbn [find_id_mut find_id].
  destruct (str_eqb (vn_id n) id); auto.
  assert (L : option_map fst (find_map_mut (find_id_mut id) ch) = find_map (find_id id) ch).
  { induction IH as [|x r Hx Hr IHr]; cbn; auto. rewrite <- Hx, <- IHr.
    destruct (find_id_mut id x) as [[w p]|]; auto. now destruct (find_map_mut (find_id_mut id) r) as [[w p]|]. }
  rewrite <- L. now destruct (find_map_mut (find_id_mut id) ch) as [[w p]|].
Qed.

(** ** Adding one view *)
Definition ins (p : str) (c v : aview) : option aview :=
  match find_id_mut p v with Some (w, put) => Some (put (push_child c w)) | None => None end.
Fixpoint insl (p : str) (c : aview) (l : list aview) : option (list aview) :=
  match l with
  | [] => None
  | x :: r => match ins p c x with Some x' => Some (x' :: r) | None => option_map (cons x) (insl p c r) end
  end.
Lemma insl_mut p c l :
  insl p c l = match find_map_mut (find_id_mut p) l with Some (w, put) => Some (put (push_child c w)) | None => None end.
Proof.
  induction l as [|x r IH]; cbn; auto. unfold ins. destruct (find_id_mut p x) as [[w q]|]; auto.
  rewrite IH. now destruct (find_map_mut (find_id_mut p) r) as [[w q]|].
Qed.
Lemma ins_node p c n ch :
  ins p c (VNode n ch) = if str_eqb (vn_id n) p then Some (VNode n (ch ++ [c])) else option_map (VNode n) (insl p c ch).
Proof.
  unfold ins. cbn [find_id_mut]. destruct (str_eqb (vn_id n) p); auto. rewrite insl_mut.
  now destruct (find_map_mut (find_id_mut p) ch) as [[w q]|].
Qed.
Lemma insl_app p c a b :
  insl p c (a ++ b) = match insl p c a with Some a' => Some (a' ++ b) | None => option_map (app a) (insl p c b) end.
Proof.
  induction a as [|x r IH]; cbn.
  - now destruct (insl p c b).
  - destruct (ins p c x); auto. rewrite IH. destruct (insl p c r); auto. now destruct (insl p c b).
Qed.
Lemma ins_none p c v : ins p c v = None <-> ~ In p (ids v).
Proof.
  induction v as [n ch IH] using aview_induct. rewrite ins_node, ids_eq.
  assert (L : insl p c ch = None <-> ~ In p (fids ch)).
  { induction IH as [|x r Hx Hr IHr]; cbn; [tauto|]. rewrite in_app_iff.
    destruct (ins p c x) as [x'|]; [|destruct (insl p c r) as [r'|]]; cbn.
    - split; [discriminate|]. intros H. assert (Some x' = None) by tauto. discriminate.
    - split; [discriminate|]. intros H. assert (Some r' = None) by tauto. discriminate.
    - tauto. }
  destruct (str_eqb_spec (vn_id n) p) as [E|E]; cbn.
  - split; [discriminate|tauto].
  - destruct (insl p c ch) as [ch'|]; cbn; [|tauto]. split; [discriminate|]. intros H.
    assert (Some ch' = None) by tauto. discriminate.
Qed.
Lemma insl_none p c l : insl p c l = None <-> ~ In p (fids l).
Proof.
  induction l as [|x r IH]; cbn; [tauto|]. rewrite in_app_iff. pose proof (ins_none p c x) as Hx.
  destruct (ins p c x) as [x'|]; [|destruct (insl p c r) as [r'|]]; cbn.
  - split; [discriminate|]. intros H. assert (Some x' = None) by tauto. discriminate.
  - split; [discriminate|]. intros H. assert (Some r' = None) by tauto. discriminate.
  - tauto.
Qed.
Lemma ins_nodes p c v v' : ins p c v = Some v' -> Permutation (nodes v') (nodes c ++ nodes v).
Proof.
  revert v'. induction v as [n ch IH] using aview_induct. intros v'. rewrite ins_node.
  assert (L : forall ch', insl p c ch = Some ch' -> Permutation (flat_map nodes ch') (nodes c ++ flat_map nodes ch)).
  { induction IH as [|x r Hx Hr IHr]; cbn; [discriminate|]. intros ch'.
    destruct (ins p c x) as [x'|]; [intros [= <-]|].
    - cbn. rewrite (Hx _ eq_refl). now rewrite <- app_assoc.
    - destruct (insl p c r) as [r'|]; [|discriminate]. intros [= <-]. cbn. rewrite (IHr _ eq_refl).
      rewrite !app_assoc. apply Permutation_app_tail, Permutation_app_comm. }
  destruct (str_eqb (vn_id n) p).
  - intros [= <-]. rewrite !nodes_eq, flat_map_app. cbn. rewrite app_nil_r.
    etransitivity; [|apply Permutation_middle]. constructor. apply Permutation_app_comm.
  - destruct (insl p c ch) as [ch'|]; [|discriminate]. intros [= <-]. rewrite !nodes_eq.
    rewrite (L _ eq_refl). apply Permutation_middle.
Qed.
Lemma ins_node_same p c v v' : ins p c v = Some v' -> vnode v' = vnode v.
Proof.
  destruct v as [n ch]. rewrite ins_node. destruct (str_eqb _ _); [intros [= <-]; auto|].
  destruct (insl p c ch); [intros [= <-]|discriminate]. reflexivity.
Qed.

(** ** Adding a list of views *)
Fixpoint grow (l : list android_view) (v : aview) : option aview :=
  match l with
  | [] => Some v
  | a :: r => match av_parent a with
              | None => None
              | Some p => match ins p (view_from a) v with Some v' => grow r v' | None => None end
              end
  end.
Lemma grow_app a b v : grow (a ++ b) v = match grow a v with Some v' => grow b v' | None => None end.
Proof. revert v. induction a as [|x r IH]; intros v; cbn; auto. destruct (av_parent x); auto. destruct (ins _ _ v); auto. Qed.
Lemma grow_node l v v' : grow l v = Some v' -> vnode v' = vnode v.
Proof.
  revert v. induction l as [|a r IH]; cbn; intros v; [now intros [= <-]|].
  destruct (av_parent a) as [p|]; [|discriminate]. destruct (ins p _ v) as [v1|] eqn:E; [|discriminate].
  intros H. rewrite (IH _ H). eapply ins_node_same; eauto.
Qed.
Lemma grow_nodes l v v' : grow l v = Some v' -> Permutation (nodes v') (map attrs_of l ++ nodes v).
Proof.
  revert v. induction l as [|a r IH]; cbn; intros v; [now intros [= <-]|].
  destruct (av_parent a) as [p|]; [|discriminate]. destruct (ins p _ v) as [v1|] eqn:E; [|discriminate].
  intros H. rewrite (IH _ H), (ins_nodes _ _ _ _ E). cbn. symmetry. apply Permutation_middle.
Qed.

(** the virtual root that [parse_raw_layout] leaves out *)
Definition root_raw : android_view := view_new_empty ROOT 0 ROOT 0.
Definition root_attrs : vattrs := attrs_of root_raw.
Lemma step_ins F a F' : layout_step F a = Ok F' <->
  exists p, av_parent a = Some p /\ ins p (view_from a) (VNode root_attrs F) = Some (VNode root_attrs F').
Proof.
  unfold layout_step. destruct (av_parent a) as [p|]; cbn [ok_or bind].
  2:{ split; [discriminate|]. intros (p & H & _). discriminate. }
  assert (I : ins p (view_from a) (VNode root_attrs F) =
    if str_eqb p ROOT then Some (VNode root_attrs (F ++ [view_from a])) else option_map (VNode root_attrs) (insl p (view_from a) F)).
  { rewrite ins_node. change (vn_id root_attrs) with ROOT.
    destruct (str_eqb_spec p ROOT) as [->|N]; [now rewrite str_eqb_refl|].
    destruct (str_eqb_spec ROOT p) as [E|_]; [congruence|reflexivity]. }
  rewrite insl_mut in I.
  destruct (str_eqb p ROOT).
  - split.
    + intros [= <-]. exists p. auto.
    + intros (q & [= <-] & H). rewrite I in H. now injection H as <-.
  - destruct (find_map_mut (find_id_mut p) F) as [[w put]|]; cbn [ok_or bind fst snd option_map] in *.
    + split.
      * intros [= <-]. exists p. auto.
      * intros (q & [= <-] & H). rewrite I in H. now injection H as <-.
    + split; [discriminate|]. intros (q & [= <-] & H). rewrite I in H. discriminate.
Qed.
Lemma steps_grow l F F' : layout_steps l F = Ok F' <-> grow l (VNode root_attrs F) = Some (VNode root_attrs F').
Proof.
  revert F. induction l as [|a r IH]; intros F; cbn [layout_steps grow].
  - split; intros [= <-]; auto.
  - split.
    + destruct (layout_step F a) as [F1|e|] eqn:E; cbn; try discriminate.
      apply step_ins in E. destruct E as (p & -> & ->). apply IH.
    + destruct (av_parent a) as [p|] eqn:Ep; [|discriminate].
      destruct (ins p (view_from a) (VNode root_attrs F)) as [[n F1]|] eqn:E; [|discriminate].
      pose proof (ins_node_same _ _ _ _ E) as En. cbn in En. subst n.
      assert (S : layout_step F a = Ok F1) by (apply step_ins; eauto).
      rewrite S. cbn. apply IH.
Qed.
Lemma parse_grow l F : parse_raw_layout l = Ok F <-> grow l (VNode root_attrs []) = Some (VNode root_attrs F).
Proof. apply steps_grow. Qed.

(** additions below one subtree do not touch the rest *)
Lemma grow_local n l xs ys : forall x x', grow l x = Some x' ->
  (forall a p, In a l -> av_parent a = Some p -> p <> vn_id n /\ ~ In p (fids xs)) ->
  grow l (VNode n (xs ++ x :: ys)) = Some (VNode n (xs ++ x' :: ys)).
Proof.
  induction l as [|a r IH]; intros x x'; cbn; [now intros [= <-]|]. intros H D.
  destruct (av_parent a) as [p|] eqn:Ep; [|discriminate].
  destruct (ins p (view_from a) x) as [x1|] eqn:E; [|discriminate].
  destruct (D a p (or_introl eq_refl) Ep) as [D1 D2].
  rewrite ins_node. destruct (str_eqb_spec (vn_id n) p) as [En|_]; [congruence|].
  rewrite insl_app. apply (insl_none _ (view_from a)) in D2. rewrite D2. cbn. rewrite E. cbn.
  apply IH; auto. intros b q Hb. apply D. now right.
Qed.

(** ** Flattening *)
(** the type id a view reports to its children *)
Definition reported (n : vattrs) : N := match vn_view n with inl t => get_type_id t | inr _ => av_type (vn_raw n) end.
Lemma flatten_node_type n p t : fst (flatten_node n p t) = reported n.
Proof.
  unfold flatten_node, type_of_view, reported. destruct (vn_view n); cbn [fst]; auto.
Qed.
Lemma flatten_view_eq n ch p t :
  flatten_view (VNode n ch) p t =
  (snd (flatten_node n p t),
   map (fun c => fst (flatten_view c (vn_id n) (reported n))) ch ++
   flat_map (fun c => snd (flatten_view c (vn_id n) (reported n))) ch).
Proof.
  cbn [flatten_view]. pose proof (flatten_node_type n p t) as E.
  destruct (flatten_node n p t) as [ty x]. cbn [fst snd] in *. subst ty.
  rewrite map_map. f_equal. f_equal. now rewrite flat_map_concat_map, map_map, <- flat_map_concat_map.
Qed.
Lemma flatten_view_fst v p t : fst (flatten_view v p t) = snd (flatten_node (vnode v) p t).
Proof. destruct v as [n ch]. now rewrite flatten_view_eq. Qed.
Lemma flatten_forest F :
  flatten_views F None None = snd (flatten_view (VNode root_attrs F) ROOT 0).
Proof.
  rewrite flatten_view_eq. unfold flatten_views. rewrite map_map. cbn [snd]. f_equal.
  now rewrite flat_map_concat_map, map_map, <- flat_map_concat_map.
Qed.

Lemma apply_values_id t x : av_id (apply_values t x) = av_id x.
Proof. now destruct t. Qed.
Lemma apply_values_parent t x : av_parent (apply_values t x) = av_parent x.
Proof. now destruct t. Qed.
Lemma apply_values_parent_type t x : av_parent_type (apply_values t x) = av_parent_type x.
Proof. now destruct t. Qed.
Lemma apply_values_type t x : av_type (apply_values t x) = av_type x.
Proof. now destruct t. Qed.
Lemma flatten_node_id n p t : av_id (snd (flatten_node n p t)) = vn_id n.
Proof.
  unfold flatten_node, type_of_view. destruct (vn_view n); cbn; auto. now rewrite apply_values_id.
Qed.
Lemma flatten_node_parent n p t : av_parent (snd (flatten_node n p t)) = Some p.
Proof.
  unfold flatten_node, type_of_view. destruct (vn_view n); cbn; auto. now rewrite apply_values_parent.
Qed.
Lemma flatten_node_parent_type n p t : av_parent_type (snd (flatten_node n p t)) = i8_of_u8 t.
Proof.
  unfold flatten_node, type_of_view. destruct (vn_view n); cbn; auto. now rewrite apply_values_parent_type.
Qed.
Lemma flatten_node_raw_type n p t : av_type (snd (flatten_node n p t)) = av_type (vn_raw n).
Proof.
  unfold flatten_node, type_of_view. destruct (vn_view n); cbn; auto. now rewrite apply_values_type.
Qed.

(** the tree that is read back *)
Definition back (n : vattrs) (p : str) (t : N) : vattrs := attrs_of (snd (flatten_node n p t)).
Fixpoint retree (v : aview) (p : str) (t : N) : aview :=
  match v with VNode n ch => VNode (back n p t) (map (fun c => retree c (vn_id n) (reported n)) ch) end.
Lemma back_id n p t : vn_id (back n p t) = vn_id n.
Proof. apply flatten_node_id. Qed.
Lemma retree_ids v : forall p t, ids (retree v p t) = ids v.
Proof.
  induction v as [n ch IH] using aview_induct. intros p t. cbn [retree]. rewrite !ids_eq, back_id. f_equal.
  unfold fids. induction IH as [|x r Hx Hr IHr]; cbn [map flat_map]; auto. now rewrite Hx, IHr.
Qed.
Lemma flatten_parents v : forall p t a, In a (snd (flatten_view v p t)) -> exists q, av_parent a = Some q /\ In q (ids v).
Proof.
  induction v as [n ch IH] using aview_induct. intros p t a. rewrite flatten_view_eq, ids_eq. cbn [snd].
  rewrite in_app_iff, in_map_iff, in_flat_map. intros [(c & <- & Hc)|(c & Hc & Ha)].
  - exists (vn_id n). rewrite flatten_view_fst, flatten_node_parent. cbn. auto.
  - rewrite Forall_forall in IH. destruct (IH c Hc _ _ _ Ha) as (q & E & I). exists q. split; auto. cbn. right.
    unfold fids. apply in_flat_map. eauto.
Qed.
Definition leaf (c : aview) (p : str) (t : N) : aview := VNode (back (vnode c) p t) [].
Lemma grow_heads n ty : forall ch acc,
  grow (map (fun c => fst (flatten_view c (vn_id n) ty)) ch) (VNode n acc) =
  Some (VNode n (acc ++ map (fun c => leaf c (vn_id n) ty) ch)).
Proof.
  induction ch as [|c r IH]; intros acc; cbn [map grow].
  - now rewrite app_nil_r.
  - rewrite flatten_view_fst, flatten_node_parent, ins_node. rewrite str_eqb_refl.
    rewrite IH, <- app_assoc. reflexivity.
Qed.
Lemma grow_sub v : NoDup (ids v) -> forall p t m, vn_id m = vid v ->
  grow (snd (flatten_view v p t)) (VNode m []) =
  Some (VNode m (map (fun c => retree c (vid v) (reported (vnode v))) (vchildren v))).
Proof.
  induction v as [n ch IH] using aview_induct. rewrite ids_eq. intros ND p t m Em. unfold vid in *. cbn [vnode vchildren] in *.
  rewrite flatten_view_eq. cbn [snd]. rewrite grow_app, <- Em, grow_heads. cbn [app].
  apply NoDup_cons_iff in ND as [N1 N2]. rewrite <- Em in N1.
  set (ty := reported n). clearbody ty.
  assert (G : forall done, (forall q, In q (fids ch) -> ~ In q (fids done)) ->
    grow (flat_map (fun c => snd (flatten_view c (vn_id m) ty)) ch) (VNode m (done ++ map (fun c => leaf c (vn_id m) ty) ch)) =
    Some (VNode m (done ++ map (fun c => retree c (vn_id m) ty) ch))).
  { clear Em n p t. induction IH as [|c r Hc Hr IHr]; intros done HD; cbn [flat_map map grow]; auto.
    cbn [fids flat_map] in N1, N2, HD. fold (fids r) in N1, N2, HD.
    rewrite grow_app.
    apply NoDup_app_inv in N2 as (NDc & NDr & N2).
    rewrite in_app_iff in N1.
    rewrite (grow_local m _ done (map (fun c0 => leaf c0 (vn_id m) ty) r) (leaf c (vn_id m) ty) (retree c (vn_id m) ty)).
    - change (done ++ retree c (vn_id m) ty :: map (fun c0 => leaf c0 (vn_id m) ty) r)
        with (done ++ [retree c (vn_id m) ty] ++ map (fun c0 => leaf c0 (vn_id m) ty) r).
      rewrite app_assoc. rewrite IHr; auto.
      + now rewrite <- app_assoc.
      + intros q Hq. rewrite fids_app. cbn. rewrite app_nil_r, retree_ids, in_app_iff. intros [Hd|Hq'].
        * eapply HD; eauto. rewrite in_app_iff; auto.
        * eapply N2; eauto.
    - unfold leaf. destruct c as [nc cc]. cbn [vnode retree].
      specialize (Hc NDc (vn_id m) ty (back nc (vn_id m) ty) (back_id _ _ _)). exact Hc.
    - intros a q Ha Hq. destruct (flatten_parents _ _ _ _ Ha) as (q' & E & I). rewrite Hq in E. injection E as <-. split.
      + intros ->. apply N1. auto.
      + apply HD. apply in_app_iff. auto. }
  apply (G []). intros q _ [].
Qed.
Lemma round_trip F : NoDup (fids F) -> ~ In ROOT (fids F) ->
  parse_raw_layout (flatten_views F None None) = Ok (map (fun v => retree v ROOT 0) F).
Proof.
  intros ND NR. apply parse_grow. rewrite flatten_forest.
  rewrite (grow_sub (VNode root_attrs F)); auto. rewrite ids_eq. now constructor.
Qed.
