(** Lemmas about flattening (A_View.v): which fields survive, what is written for a parsed layout. *)
From Coq Require Import Permutation Lia.
From Verif Require Import Base Str Dec Flt Json M_Color M_View A_View SpecView ViewTreeProofs.

(** ** View types by number *)
Lemma type_cases n : n = 0 \/ n = 1 \/ n = 2 \/ n = 3 \/ n = 4 \/ n = 5 \/ n = 6 \/ n = 7 \/ n = 8 \/ n = 9 \/ n = 10 \/ n = 11 \/
  n = 12 \/ n = 13 \/ n = 14 \/ n = 15 \/ n = 16 \/ n = 17 \/ n = 18 \/ 18 < n.
Proof. lia. Qed.
Definition from_view_k (k : N) (v : android_view) : view_type + view_type_error :=
  let l := av_layout v in let t := av_text v in let i := av_image v in
  match k with
  | 0 => inl (VLinearLayout (lc_orientation l) (lc_gravity l))
  | 2 => inl (VScrollView LoHorizontal (lc_gravity l))
  | 3 => inl (VButton (tc_text t) (tc_text_color t) (tc_text_size t) (tc_text_type t))
  | 4 => inl (VTextView (tc_text t) (tc_text_color t) (tc_text_size t) (tc_single_line t) (tc_text_font t)
                        (tc_text_type t) (tc_line t))
  | 5 => inl (VEditText (tc_text t) (tc_text_color t) (tc_text_size t) (tc_single_line t) (tc_text_font t)
                        (tc_text_type t) (tc_line t) (tc_hint t) (tc_hint_color t) (tc_ime_option t) (tc_input_type t))
  | 6 => match ic_res_name i with
         | Some r => inl (VImageView r (ic_scale_type i))
         | None => inr (ResNameNotPresent (av_id v))
         end
  | 7 => inl VWebView
  | 8 => inl (VProgressBar (av_max v) (av_progress v) (av_indeterminate v) (av_progress_style v))
  | 9 => inl (VListView (av_divider_height v) (av_custom_view v))
  | 10 => inl (VSpinner (av_spinner_mode v))
  | 11 => inl (VCheckBox (av_checked v) (tc_text t) (tc_text_color t) (tc_text_size t) (tc_text_font t) (tc_text_type t))
  | 12 => inl (VScrollView LoVertical (lc_gravity l))
  | 13 => inl (VSwitch (av_checked v) (tc_text t) (tc_text_color t) (tc_text_size t) (tc_text_font t) (tc_text_type t))
  | 14 => inl (VSeekBar (av_max v) (av_progress v))
  | 15 => inl (VCalendarView (av_first_day_of_week v))
  | 16 => match ic_res_name i with
          | Some r => inl (VFab r)
          | None => inr (ResNameNotPresent (av_id v))
          end
  | 17 => inl (VAdView (av_ad_size v))
  | 18 => inl VMapView
  | n => inr (UnknownViewType n (av_id v))
  end.
Lemma from_view_at v k : av_type v = k -> from_view v = from_view_k k v.
Proof.
  intros <-. unfold from_view, from_view_k. destruct (av_type v) as [|p]; [reflexivity|].
  destruct p as [p|p|]; try reflexivity; destruct p as [p|p|]; try reflexivity; destruct p as [p|p|]; try reflexivity;
    destruct p as [p|p|]; try reflexivity; destruct p as [p|p|]; reflexivity.
Qed.
Lemma from_view_big k v : 18 < k -> from_view_k k v = inr (UnknownViewType k (av_id v)).
Proof.
  intros H. unfold from_view_k. destruct k as [|p]; [lia|].
  destruct p as [p|p|]; try lia; destruct p as [p|p|]; try lia; destruct p as [p|p|]; try lia; try reflexivity;
    destruct p as [p|p|]; try lia; try reflexivity; destruct p as [p|p|]; try lia; reflexivity.
Qed.

(** ** What is read back for one view *)
Lemma back_attrs n p t :
  let b := back n p t in
  vn_id b = vn_id n /\ vn_background_color b = vn_background_color n /\ vn_height b = vn_height n /\ vn_width b = vn_width n /\
  vn_padding b = vn_padding n /\ vn_margin b = vn_margin n /\ vn_weight b = vn_weight n /\ vn_weight_sum b = vn_weight_sum n /\
  vn_layout_gravity b = vn_layout_gravity n.
Proof.
  cbv zeta. split; [apply back_id|]. unfold back, flatten_node, type_of_view.
  destruct n as [i bg h w [p1 p2 p3 p4] [m1 m2 m3 m4] we ws lg vw raw]. cbn [vn_view].
  destruct vw as [vt|e]; repeat split.
Qed.

Lemma raw_type_bound t k : raw_type_of t = Some k -> k <= 18 /\ k <> 1.
Proof. destruct t as [| [| |]| | | | | | | | | | | | | | |]; cbn; intros H; try discriminate; injection H as <-; lia. Qed.

Lemma flatten_node_view t n p ty : vn_view n = inl t ->
  snd (flatten_node n p ty) = apply_common n (apply_values t (set_av_parent_type (i8_of_u8 ty) (set_av_parent (Some p) (set_av_id (vn_id n) (vn_raw n))))).
Proof. intros E. unfold flatten_node, type_of_view. now rewrite E. Qed.
Lemma flatten_node_err e n p ty : vn_view n = inr e ->
  snd (flatten_node n p ty) = apply_common n (set_av_parent_type (i8_of_u8 ty) (set_av_parent (Some p) (set_av_id (vn_id n) (vn_raw n)))).
Proof. intros E. unfold flatten_node, type_of_view. now rewrite E. Qed.
Lemma apply_common_res_name n x : ic_res_name (av_image (apply_common n x)) = ic_res_name (av_image x).
Proof. reflexivity. Qed.
Lemma view_kept n p t : vn_view (back n p t) = vn_view n <-> agrees n.
Proof.
  unfold back. cbn [attrs_of vn_view]. rewrite (from_view_at _ (av_type (vn_raw n))) by apply flatten_node_raw_type.
  unfold agrees. destruct (vn_view n) as [vt|e] eqn:E.
  - rewrite (flatten_node_view _ _ _ _ E). set (k := av_type (vn_raw n)). clearbody k.
    destruct (type_cases k) as [->|[->|[->|[->|[->|[->|[->|[->|[->|[->|[->|[->|[->|[->|[->|[->|[->|[->|[->|Hk]]]]]]]]]]]]]]]]]]].
    20:{ rewrite (from_view_big _ _ Hk). split; [discriminate|]. intros H. apply raw_type_bound in H. lia. }
    all: destruct vt as [| [| |]| | | | | | | | | | | | | | |]; split; intros H;
         (discriminate H || reflexivity || (cbn in H; destruct (ic_res_name (av_image (vn_raw n))); discriminate H) || idtac).
  - rewrite (flatten_node_err _ _ _ _ E). set (k := av_type (vn_raw n)). clearbody k.
    destruct (type_cases k) as [->|[->|[->|[->|[->|[->|[->|[->|[->|[->|[->|[->|[->|[->|[->|[->|[->|[->|[->|Hk]]]]]]]]]]]]]]]]]]].
    20:{ rewrite (from_view_big _ _ Hk). destruct e as [ty i|i]; split; intros H.
         - cbn in H. injection H as <- <-. auto.
         - destruct H as (-> & -> & _). reflexivity.
         - discriminate H.
         - lia. }
    all: destruct e as [ty i|i]; split; intros H; try discriminate H; try (exfalso; lia).
    all: try (destruct H as (H1 & H2 & H3); subst; exfalso; lia).
    all: cbn in *.
    all: try (destruct (ic_res_name (av_image (vn_raw n))); discriminate H).
    all: try (injection H as <- <-; auto).
    all: try (destruct H as (-> & -> & _); reflexivity).
    all: try (destruct (ic_res_name (av_image (vn_raw n))); [discriminate H|injection H as <-; auto]).
    all: destruct H as (-> & _ & ->); reflexivity.
Qed.

(** ** What is written for a parsed view *)
Lemma reported_seen b : reported (attrs_of b) = seen_type b.
Proof.
  unfold reported. cbn [attrs_of vn_view vn_raw]. rewrite (from_view_at _ _ eq_refl). unfold seen_type.
  set (k := av_type b). clearbody k.
  destruct (type_cases k) as [->|[->|[->|[->|[->|[->|[->|[->|[->|[->|[->|[->|[->|[->|[->|[->|[->|[->|[->|Hk]]]]]]]]]]]]]]]]]]].
  20:{ rewrite (from_view_big _ _ Hk). destruct (N.eqb_spec k 12); [lia|]. destruct (N.leb_spec k 18); [lia|].
       now rewrite andb_false_r. }
  all: cbn; try reflexivity. all: now destruct (ic_res_name (av_image b)).
Qed.
Definition fix_orientation (ty : N) (o : layout_orientation) : layout_orientation :=
  if ty =? 2 then LoHorizontal else if ty =? 12 then LoVertical else o.
Definition written (a : android_view) (t : N) : android_view :=
  set_av_parent_type (i8_of_u8 t) (in_layout (set_lc_orientation (fix_orientation (av_type a) (lc_orientation (av_layout a)))) a).
Lemma flatten_attrs a p t : av_parent a = Some p -> snd (flatten_node (attrs_of a) p t) = written a t.
Proof.
  intros Hp. unfold flatten_node, type_of_view, written. cbn [attrs_of vn_view vn_id vn_raw].
  rewrite (from_view_at _ _ eq_refl).
  destruct a as [x1 x2 x3 x4 x5 x6 x7 x8 x9 x10 x11 [i1 i2 i3] x13 x14 [l1 l2 l3 l4 l5 l6 l7 l8 l9 l10 l11 l12 l13 l14 l15 l16] x16 x17 x18 x19 x20 x21 x22 x23 x24 x25 x26 x27 [t1 t2 t3 t4 t5 t6 t7 t8 t9 t10 t11] x29 x30 ty].
  cbn [av_type av_parent] in *. subst x17.
  destruct (type_cases ty) as [->|[->|[->|[->|[->|[->|[->|[->|[->|[->|[->|[->|[->|[->|[->|[->|[->|[->|[->|Hk]]]]]]]]]]]]]]]]]]].
  20:{ rewrite (from_view_big _ _ Hk). unfold fix_orientation. destruct (N.eqb_spec ty 2); [lia|]. destruct (N.eqb_spec ty 12); [lia|]. reflexivity. }
  all: try reflexivity. all: destruct i1; reflexivity.
Qed.

(** ** Parsed trees *)
Inductive well : str -> aview -> Prop :=
| Well p a ch : av_parent a = Some p -> (ch <> [] -> av_id a <> ROOT) -> Forall (well (av_id a)) ch ->
                well p (VNode (attrs_of a) ch).
Lemma ins_well q a : av_parent a = Some q -> q <> ROOT ->
  forall v p v', well p v -> ins q (view_from a) v = Some v' -> well p v'.
Proof.
  intros Hq NR. induction v as [n ch IH] using aview_induct. intros p v' W. rewrite ins_node.
  inversion W as [p' b ch' Hp Hr Hc]; subst. cbn [attrs_of vn_id].
  destruct (str_eqb_spec (av_id b) q) as [E|E].
  - intros [= <-]. constructor; auto.
    + intros _. congruence.
    + apply Forall_app. split; auto. constructor; [|constructor]. unfold view_from. constructor; auto; try congruence.
  - assert (L : forall ch', insl q (view_from a) ch = Some ch' -> Forall (well (av_id b)) ch' /\ ch <> []).
    { clear W Hr. revert Hc. induction IH as [|x r Hx Hr IHr]; cbn; [discriminate|]. intros Hc ch'.
      apply Forall_cons_iff in Hc as [W1 W2].
      destruct (ins q (view_from a) x) as [x'|]; [intros [= <-]|].
      - split; [|discriminate]. constructor; eauto.
      - destruct (insl q (view_from a) r) as [r'|]; [|discriminate]. intros [= <-]. split; [|discriminate].
        constructor; auto. apply (IHr W2 _ eq_refl). }
    destruct (insl q (view_from a) ch) as [ch'|]; [|discriminate]. intros [= <-].
    destruct (L _ eq_refl) as [L1 L2]. constructor; auto.
Qed.
Lemma insl_well q a : av_parent a = Some q -> q <> ROOT ->
  forall l l', Forall (well ROOT) l -> insl q (view_from a) l = Some l' -> Forall (well ROOT) l'.
Proof.
  intros Hq NR. induction l as [|x r IH]; cbn; [discriminate|]. intros l' W. apply Forall_cons_iff in W as [W1 W2].
  destruct (ins q (view_from a) x) as [x'|] eqn:E; [intros [= <-]|].
  - constructor; auto. eapply ins_well; eauto.
  - destruct (insl q (view_from a) r) as [r'|]; [|discriminate]. intros [= <-]. constructor; auto.
Qed.
Lemma step_well F a F' : Forall (well ROOT) F -> layout_step F a = Ok F' -> Forall (well ROOT) F'.
Proof.
  intros W H. unfold layout_step in H. destruct (av_parent a) as [p|] eqn:Ep; [|discriminate]. cbn [ok_or bind] in H.
  destruct (str_eqb_spec p ROOT) as [->|N].
  - injection H as <-. apply Forall_app. split; auto. constructor; [|constructor]. unfold view_from. constructor; auto; congruence.
  - pose proof (insl_mut p (view_from a) F) as I. destruct (find_map_mut (find_id_mut p) F) as [[w put]|]; [|discriminate].
    injection H as <-. eapply insl_well; eauto.
Qed.
Lemma parse_well l : forall F F', Forall (well ROOT) F -> layout_steps l F = Ok F' -> Forall (well ROOT) F'.
Proof.
  induction l as [|a r IH]; intros F F' W; cbn; [now intros [= <-]|].
  destruct (layout_step F a) as [F1| |] eqn:E; cbn; try discriminate. apply IH. eapply step_well; eauto.
Qed.
Lemma well_raw p v : well p v -> Forall (fun n => n = attrs_of (vn_raw n)) (nodes v).
Proof.
  revert p. induction v as [n ch IH] using aview_induct. intros p W. inversion W as [p' b ch' Hp Hr Hc]; subst.
  rewrite nodes_eq. constructor; auto. clear W Hr. revert Hc.
  induction IH as [|x r Hx _ IHr]; cbn; intros Hc; [constructor|]. apply Forall_cons_iff in Hc as [W1 W2].
  apply Forall_app. split; eauto.
Qed.

(** the views of a tree with the type id reported by their parent *)
Fixpoint anno (v : aview) (t : N) : list (android_view * N) :=
  match v with VNode n ch => (vn_raw n, t) :: flat_map (fun c => anno c (reported n)) ch end.
Lemma anno_raw v : forall t, map fst (anno v t) = map vn_raw (nodes v).
Proof.
  induction v as [n ch IH] using aview_induct. intros t. rewrite nodes_eq. cbn [anno map fst]. f_equal.
  induction IH as [|x r Hx _ IHr]; cbn [flat_map]; auto. now rewrite !map_app, Hx, IHr.
Qed.
Lemma anno_parent v : forall p t a t', well p v -> In (a, t') (anno v t) ->
  (av_parent a = Some p /\ t' = t) \/
  exists b, In b (map vn_raw (nodes v)) /\ av_parent a = Some (av_id b) /\ t' = reported (attrs_of b) /\ av_id b <> ROOT.
Proof.
  induction v as [n ch IH] using aview_induct. intros p t a t' W. inversion W as [p' b ch' Hp Hr Hc]; subst.
  cbn [anno attrs_of vn_raw]. intros [[= <- <-]|H]; [auto|]. right.
  apply in_flat_map in H as (c & Ic & H). rewrite Forall_forall in IH, Hc.
  assert (NR : av_id b <> ROOT) by (apply Hr; intros ->; destruct Ic).
  destruct (IH c Ic _ _ _ _ (Hc c Ic) H) as [[H1 H2]|(d & D1 & D2 & D3)].
  - exists b. rewrite nodes_eq. cbn. auto.
  - exists d. split; auto. rewrite nodes_eq. cbn [map]. right. rewrite in_map_iff in *. destruct D1 as (m & M1 & M2).
    exists m. split; auto. apply in_flat_map. eauto.
Qed.
Lemma perm_heads {A B} (f : A -> B) (g : A -> list B) l :
  Permutation (map f l ++ flat_map g l) (flat_map (fun c => f c :: g c) l).
Proof.
  induction l as [|x r IH]; cbn; auto. constructor. rewrite <- IH. rewrite !app_assoc.
  apply Permutation_app_tail, Permutation_app_comm.
Qed.
Lemma flatten_well v : forall p t, well p v ->
  Permutation (fst (flatten_view v p t) :: snd (flatten_view v p t)) (map (fun x => written (fst x) (snd x)) (anno v t)).
Proof.
  induction v as [n ch IH] using aview_induct. intros p t W. inversion W as [p' b ch' Hp Hr Hc]; subst.
  rewrite flatten_view_eq. cbn [fst snd anno map]. rewrite (flatten_attrs b p t Hp). constructor.
  rewrite perm_heads. clear W Hp Hr. revert Hc. generalize (reported (attrs_of b)). intros t'.
  cbn [attrs_of vn_id]. generalize (av_id b). intros i.
  induction IH as [|x r Hx _ IHr]; cbn [flat_map map]; intros Hc; auto. apply Forall_cons_iff in Hc as [W1 W2].
  rewrite map_app. apply (Permutation_app (Hx i t' W1)). auto.
Qed.
Lemma flatten_parsed l F : parse_raw_layout l = Ok F ->
  exists ps : list (android_view * N),
    Permutation (map fst ps) l /\
    Permutation (flatten_views F None None) (map (fun x => written (fst x) (snd x)) ps) /\
    forall a t, In (a, t) ps ->
      (av_parent a = Some ROOT /\ t = 0) \/
      (exists b, In b l /\ av_parent a = Some (av_id b) /\ t = seen_type b /\ av_id b <> ROOT).
Proof.
  intros H. pose proof (parse_well _ _ _ (Forall_nil _) H) as W.
  apply parse_grow in H. apply grow_nodes in H. rewrite !nodes_eq in H. cbn [flat_map] in H.
  rewrite <- Permutation_middle, app_nil_r in H. apply Permutation_cons_inv in H.
  assert (R : Permutation (map vn_raw (flat_map nodes F)) l).
  { rewrite H, map_map. cbn. now rewrite map_id. }
  exists (flat_map (fun c => anno c 0) F).
  assert (A : map fst (flat_map (fun c => anno c 0) F) = map vn_raw (flat_map nodes F)).
  { clear. induction F as [|c r IH]; cbn; auto. now rewrite !map_app, IH, anno_raw. }
  rewrite A. split; [exact R|]. split.
  - rewrite flatten_forest, flatten_view_eq. cbn [snd]. change (reported root_attrs) with 0. change (vn_id root_attrs) with ROOT.
    rewrite perm_heads. clear -W. induction W as [|c r Hc Hr IH]; cbn [flat_map map]; auto.
    rewrite map_app. apply Permutation_app; auto. now apply flatten_well.
  - intros a t I. apply in_flat_map in I as (c & Ic & I). rewrite Forall_forall in W.
    destruct (anno_parent _ _ _ _ _ (W c Ic) I) as [|(b & B1 & B2 & B3 & B4)]; auto. right. exists b.
    rewrite reported_seen in B3. repeat split; auto. eapply Permutation_in; [exact R|].
    rewrite in_map_iff in *. destruct B1 as (m & M1 & M2). exists m. split; auto. apply in_flat_map. eauto.
Qed.
Lemma perm_keyed {A B K} (key : B -> K) (f g : A -> B) l :
  (forall x, key (g x) = key (f x)) -> NoDup (map key (map f l)) ->
  Permutation (map g l) (map f l) -> forall x, In x l -> g x = f x.
Proof.
  intros K1 ND P x I.
  assert (H : In (g x) (map f l)) by (eapply Permutation_in; [exact P|]; apply in_map; auto).
  apply in_map_iff in H as (y & E & Iy). rewrite <- E.
  assert (Ek : key (f y) = key (f x)) by (rewrite E; apply K1).
  assert (Hin : In (f x) (map f l)) by (apply in_map; auto). assert (Hin' : In (f y) (map f l)) by (apply in_map; auto).
  clear -ND Ek Hin Hin'. induction (map f l) as [|z r IH]; [destruct Hin|]. cbn in ND. apply NoDup_cons_iff in ND as [N1 N2].
  destruct Hin as [->|Hin], Hin' as [Ey|Hin']; auto.
  - exfalso. apply N1. rewrite <- Ek. now apply in_map.
  - subst z. exfalso. apply N1. rewrite Ek. now apply in_map.
Qed.
Lemma written_id a t : av_id (written a t) = av_id a.
Proof. reflexivity. Qed.
Lemma written_same a t : written a t = a <->
  av_parent_type a = i8_of_u8 t /\ (av_type a = 2 -> lc_orientation (av_layout a) = LoHorizontal) /\
  (av_type a = 12 -> lc_orientation (av_layout a) = LoVertical).
Proof.
  split.
  - intros E. assert (E1 := f_equal av_parent_type E). assert (E2 := f_equal (fun x => lc_orientation (av_layout x)) E).
    cbn in E1, E2. rewrite <- E1 at 1. split; auto. unfold fix_orientation in E2.
    split; intros Ht; rewrite Ht in E2; cbn in E2; auto.
  - intros (H1 & H2 & H3). unfold written.
    replace (fix_orientation (av_type a) (lc_orientation (av_layout a))) with (lc_orientation (av_layout a)).
    + rewrite <- H1. destruct a as [x1 x2 x3 x4 x5 x6 x7 x8 x9 x10 x11 x12 x13 x14 [] x16 x17 x18 x19 x20 x21 x22 x23 x24 x25 x26 x27 x28 x29 x30 ty].
      reflexivity.
    + unfold fix_orientation. destruct (N.eqb_spec (av_type a) 2); auto. destruct (N.eqb_spec (av_type a) 12); auto.
Qed.

(** ** When parsing succeeds *)
Lemma step_ids F a F' : layout_step F a = Ok F' -> Permutation (fids F') (av_id a :: fids F).
Proof.
  intros H. apply step_ins in H as (p & _ & H). apply ins_nodes in H. apply (Permutation_map vn_id) in H.
  rewrite map_app, <- !ids_nodes, !ids_eq in H. cbn [view_from ids preorder map app] in H.
  cbn in H. eapply Permutation_cons_inv. etransitivity; [exact H|]. apply perm_swap.
Qed.
Lemma step_result F a :
  (exists F', layout_step F a = Ok F' /\ exists p, av_parent a = Some p /\ (p = ROOT \/ In p (fids F))) \/
  (layout_step F a = Err (NoParentField (av_id a)) /\ av_parent a = None) \/
  (exists p, layout_step F a = Err (NonexistentParent (av_id a) p) /\ av_parent a = Some p /\ p <> ROOT /\ ~ In p (fids F)).
Proof.
  unfold layout_step. destruct (av_parent a) as [p|]; cbn [ok_or bind]; [|auto].
  destruct (str_eqb_spec p ROOT) as [->|N]; [left; eauto 6|].
  pose proof (insl_mut p (view_from a) F) as I. pose proof (insl_none p (view_from a) F) as J.
  destruct (find_map_mut (find_id_mut p) F) as [[w put]|]; cbn [ok_or bind].
  - left. eexists. split; [reflexivity|]. exists p. split; auto. right.
    destruct (in_dec (list_eq_dec N.eq_dec) p (fids F)); auto. apply J in n. congruence.
  - right. right. exists p. repeat split; auto. now apply J.
Qed.
Definition parent_known (pre : list str) (a : android_view) : Prop :=
  exists p, av_parent a = Some p /\ (p = ROOT \/ In p pre).
Lemma steps_ok l : forall F, (exists F', layout_steps l F = Ok F') <->
  (forall pre a post, l = pre ++ a :: post -> parent_known (map av_id pre ++ fids F) a).
Proof.
  induction l as [|a r IH]; intros F; cbn [layout_steps].
  - split; eauto. intros _ [|x pre] b post; discriminate.
  - split.
    + destruct (step_result F a) as [(F1 & E & p & Hp & Hk)|[[E Hp]|(p & E & Hp & H1 & H2)]]; rewrite E; cbn [bind].
      2,3: intros (F' & H); discriminate H.
      intros H [|x pre] b post; cbn.
      * intros [= <- <-]. exists p. auto.
      * intros [= <- ->]. destruct (proj1 (IH F1) H pre b post eq_refl) as (q & Q1 & Q2). exists q. split; auto.
        destruct Q2 as [|Q2]; auto. right. apply step_ids in E.
        rewrite in_app_iff in Q2. destruct Q2 as [Q2|Q2]; [right; apply in_app_iff; auto|].
        eapply Permutation_in in Q2; [|exact E]. destruct Q2 as [<-|Q2]; [now left|right; apply in_app_iff; auto].
    + intros H. destruct (H [] a r eq_refl) as (q & Q1 & Q2). cbn [map app] in Q2.
      destruct (step_result F a) as [(F1 & E & _)|[[E Hp]|(p & E & Hp & H1 & H2)]]; rewrite ?E; cbn [bind].
      * apply IH. intros pre b post ->. destruct (H (a :: pre) b post eq_refl) as (s & S1 & S2). exists s. split; auto.
        destruct S2 as [|S2]; auto. right. apply step_ids in E. cbn in S2. rewrite in_app_iff in *.
        destruct S2 as [<-|[S2|S2]]; auto; right; eapply Permutation_in; try (symmetry; exact E); cbn; auto.
      * congruence.
      * rewrite Hp in Q1. injection Q1 as <-. tauto.
Qed.
Lemma steps_app a b F : layout_steps (a ++ b) F = let* F1 := layout_steps a F in layout_steps b F1.
Proof. revert F. induction a as [|x r IH]; intros F; cbn; auto. destruct (layout_step F x); cbn; auto. Qed.
Lemma steps_ids l F F' : layout_steps l F = Ok F' -> Permutation (fids F') (map av_id l ++ fids F).
Proof.
  revert F. induction l as [|a r IH]; intros F; cbn; [now intros [= <-]|].
  destruct (layout_step F a) as [F1| |] eqn:E; cbn; try discriminate. intros H.
  rewrite (IH _ H), (step_ids _ _ _ E). symmetry. apply Permutation_middle.
Qed.
Lemma steps_err l e : forall F, layout_steps l F = Err e <->
  exists pre a post F1, l = pre ++ a :: post /\ layout_steps pre F = Ok F1 /\
    ((av_parent a = None /\ e = NoParentField (av_id a)) \/
     exists p, av_parent a = Some p /\ p <> ROOT /\ ~ In p (fids F1) /\ e = NonexistentParent (av_id a) p).
Proof.
  induction l as [|a r IH]; intros F; cbn [layout_steps].
  - split; [discriminate|]. intros ([|] & ? & ? & ? & ? & _); discriminate.
  - split.
    + destruct (step_result F a) as [(F1 & E & _)|[[E Hp]|(p & E & Hp & H1 & H2)]]; rewrite E; cbn [bind].
      * intros H. apply IH in H as (pre & b & post & F2 & -> & H1 & H2). exists (a :: pre), b, post, F2.
        cbn [layout_steps]. rewrite E. auto.
      * intros [= <-]. exists [], a, r, F. auto.
      * intros [= <-]. exists [], a, r, F. repeat split; auto. right. eauto.
    + intros ([|x pre] & b & post & F1 & L & H1 & H2).
      * injection L as <- <-. injection H1 as <-.
        destruct (step_result F a) as [(F1 & E & p & Hp & Hk)|[[E Hp]|(p & E & Hp & G1 & G2)]]; rewrite E; cbn [bind].
        -- exfalso. destruct H2 as [[H2 _]|(q & Q1 & Q2 & Q3 & _)]; [congruence|]. rewrite Hp in Q1. injection Q1 as <-. tauto.
        -- destruct H2 as [[_ ->]|(q & Q1 & _)]; [auto|congruence].
        -- destruct H2 as [[H2 _]|(q & Q1 & Q2 & Q3 & ->)]; [congruence|]. rewrite Hp in Q1. now injection Q1 as <-.
      * injection L as <- ->. cbn [layout_steps] in H1. destruct (layout_step F a) as [F2| |]; cbn [bind] in *; try discriminate.
        apply IH. exists pre, b, post, F1. auto.
Qed.
Lemma steps_no_panic l : forall F, layout_steps l F <> Panic.
Proof.
  induction l as [|a r IH]; intros F; cbn [layout_steps]; [discriminate|].
  destruct (step_result F a) as [(F1 & E & _)|[[E _]|(p & E & _)]]; rewrite E; cbn [bind]; try discriminate. apply IH.
Qed.

(** ** Forests that come back *)
Lemma retree_same (R : vattrs -> vattrs -> Prop) : (forall n p t, R n (back n p t)) -> forall v p t, same_tree R v (retree v p t).
Proof.
  intros HR. induction v as [n ch IH] using aview_induct. intros p t. cbn [retree]. constructor; auto.
  induction IH as [|x r Hx _ IHr]; cbn; constructor; auto.
Qed.
Lemma forest_same (R : vattrs -> vattrs -> Prop) F : (forall n p t, R n (back n p t)) ->
  NoDup (fids F) -> ~ In ROOT (fids F) ->
  exists F', parse_raw_layout (flatten_views F None None) = Ok F' /\ Forall2 (same_tree R) F F'.
Proof.
  intros HR N1 N2. eexists. split; [apply round_trip; auto|].
  clear -HR. induction F as [|v r IH]; cbn; constructor; auto. now apply retree_same.
Qed.
Lemma back_hidden n p t : same_hidden n (back n p t).
Proof.
  unfold same_hidden, back, flatten_node, type_of_view. cbn [attrs_of vn_raw].
  destruct (vn_view n) as [vt|e]; [destruct vt|]; repeat split.
Qed.
Lemma layout_back F : layout_ok F -> exists F', parse_raw_layout (flatten_views F None None) = Ok F' /\ same_layout F F'.
Proof.
  intros [N R]. apply forest_same; auto. intros n p t. split; [exact (back_attrs n p t)|]. split; [apply back_hidden|]. apply view_kept.
Qed.
