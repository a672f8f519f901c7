(** Properties C36-C40: view trees of the API (/repo/src/api/view.rs). *)
From Coq Require Import Permutation Lia.
From Verif Require Import Base Str Dec Flt Json M_Color M_View A_View SpecView ViewTreeProofs ViewFlatProofs.

(** ** C36 *)
(** Every forest with distinct ids other than [root] comes back with the same shape, the same common and hidden
    attributes; the [view] value comes back exactly when it belongs to the type number of the raw view (the last part is
    what is missing for the full claim, see [C36_refuted]). *)
Theorem C36_partial F : NoDup (fids F) -> ~ In ROOT (fids F) ->
  exists F', parse_raw_layout (flatten_views F None None) = Ok F' /\
    same_layout F F'.
Proof.
  apply forest_same. intros n p t. split; [exact (back_attrs n p t)|]. split; [apply back_hidden|]. apply view_kept.
Qed.
Print Assumptions C36_partial.

Definition mk (id : string) (ty : N) (parent : string) (pt : Z) : android_view := view_new_empty (lit id) ty (lit parent) pt.
Definition leafv (id : string) (ty : N) : aview := view_from (mk id ty "x" 0).
(** a linear layout with a scroll view that holds two views, and a second top-level view *)
Definition forest1 : list aview :=
  [VNode (attrs_of (mk "linear1" 0 "x" 0))
     [leafv "text1" 4; VNode (attrs_of (mk "vscroll1" 12 "x" 0)) [leafv "check1" 11; leafv "seek1" 14]];
   leafv "map1" 18].
Example C36_example :
  NoDup (fids forest1) /\ ~ In ROOT (fids forest1) /\ Forall (fun v => Forall agrees (nodes v)) forest1 /\
  exists F', parse_raw_layout (flatten_views forest1 None None) = Ok F' /\ fids F' = fids forest1 /\
    map (fun a => (av_id a, av_parent a)) (flatten_views forest1 None None) =
    [(lit "linear1", Some ROOT); (lit "map1", Some ROOT); (lit "text1", Some (lit "linear1"));
     (lit "vscroll1", Some (lit "linear1")); (lit "check1", Some (lit "vscroll1")); (lit "seek1", Some (lit "vscroll1"))].
Proof.
  split; [repeat constructor; cbn; intuition congruence|]. split; [cbn; intuition congruence|].
  split; [repeat constructor|]. eexists. split; [vm_compute; reflexivity|]. split; vm_compute; reflexivity.
Qed.

(** replacing the [view] value of a text view by a button is lost *)
Theorem C36_refuted : ~ (forall F, NoDup (fids F) -> ~ In ROOT (fids F) ->
  exists F', parse_raw_layout (flatten_views F None None) = Ok F' /\ Forall2 (same_tree (fun n m => vn_view m = vn_view n)) F F').
Proof.
  intros H.
  set (n := attrs_of (mk "button1" 4 "root" 0)).
  set (w := {| vn_id := vn_id n; vn_background_color := vn_background_color n; vn_height := vn_height n; vn_width := vn_width n;
               vn_padding := vn_padding n; vn_margin := vn_margin n; vn_weight := vn_weight n; vn_weight_sum := vn_weight_sum n;
               vn_layout_gravity := vn_layout_gravity n;
               vn_view := inl (VButton (lit "Ok") color_default 12 TtNormal); vn_raw := vn_raw n |}).
  destruct (H [VNode w []]) as (F' & P & S).
  - repeat constructor. cbn. tauto.
  - vm_compute. intuition discriminate.
  - assert (E : parse_raw_layout (flatten_views [VNode w []] None None) = Ok [VNode (back w ROOT 0) []]) by (vm_compute; reflexivity).
    rewrite E in P. injection P as <-. inversion S as [|x y l l' S1 S2]; subst. inversion S1 as [n1 n2 c1 c2 V _]; subst.
    apply view_kept in V. vm_compute in V. discriminate V.
Qed.
Print Assumptions C36_refuted.

(** ** C37 *)
(** [b] is [a] with the parent type [t] and, for scroll views, the orientation of the type; nothing else differs *)
Definition rewritten (a : android_view) (t : N) (b : android_view) : Prop :=
  av_ad_size b = av_ad_size a /\ av_ad_unit_id b = av_ad_unit_id a /\ av_alpha b = av_alpha a /\
  av_checked b = av_checked a /\ av_choice_mode b = av_choice_mode a /\ av_clickable b = av_clickable a /\
  av_custom_view b = av_custom_view a /\ av_divider_height b = av_divider_height a /\ av_enabled b = av_enabled a /\
  av_first_day_of_week b = av_first_day_of_week a /\ av_id b = av_id a /\ av_image b = av_image a /\
  av_indeterminate b = av_indeterminate a /\ av_index b = av_index a /\ av_max b = av_max a /\
  av_parent b = av_parent a /\ av_pre_id b = av_pre_id a /\ av_pre_index b = av_pre_index a /\
  av_pre_parent b = av_pre_parent a /\ av_pre_parent_type b = av_pre_parent_type a /\ av_progress b = av_progress a /\
  av_progress_style b = av_progress_style a /\ av_scale_x b = av_scale_x a /\ av_scale_y b = av_scale_y a /\
  av_spinner_mode b = av_spinner_mode a /\ av_text b = av_text a /\ av_translation_x b = av_translation_x a /\
  av_translation_y b = av_translation_y a /\ av_type b = av_type a /\
  lc_background_color (av_layout b) = lc_background_color (av_layout a) /\ lc_gravity (av_layout b) = lc_gravity (av_layout a) /\
  lc_height (av_layout b) = lc_height (av_layout a) /\ lc_layout_gravity (av_layout b) = lc_layout_gravity (av_layout a) /\
  lc_margin_bottom (av_layout b) = lc_margin_bottom (av_layout a) /\ lc_margin_left (av_layout b) = lc_margin_left (av_layout a) /\
  lc_margin_right (av_layout b) = lc_margin_right (av_layout a) /\ lc_margin_top (av_layout b) = lc_margin_top (av_layout a) /\
  lc_padding_bottom (av_layout b) = lc_padding_bottom (av_layout a) /\ lc_padding_left (av_layout b) = lc_padding_left (av_layout a) /\
  lc_padding_right (av_layout b) = lc_padding_right (av_layout a) /\ lc_padding_top (av_layout b) = lc_padding_top (av_layout a) /\
  lc_weight (av_layout b) = lc_weight (av_layout a) /\ lc_weight_sum (av_layout b) = lc_weight_sum (av_layout a) /\
  lc_width (av_layout b) = lc_width (av_layout a) /\
  av_parent_type b = i8_of_u8 t /\
  lc_orientation (av_layout b) = (if av_type a =? 2 then LoHorizontal else if av_type a =? 12 then LoVertical
                                  else lc_orientation (av_layout a)).
(** [as i8] *)
Theorem C37_cast t : t < 256 -> (-128 <= i8_of_u8 t < 128)%Z /\ (i8_of_u8 t mod 256 = Z.of_N t)%Z.
Proof.
  intros H. unfold i8_of_u8. destruct (N.ltb_spec t 128); (split; [lia|]).
  - apply Z.mod_small. lia.
  - rewrite <- (Z.mod_add _ 1) by lia. replace (Z.of_N t - 256 + 1 * 256)%Z with (Z.of_N t) by lia. apply Z.mod_small. lia.
Qed.
Print Assumptions C37_cast.

(** No view is lost or invented; each is written with every field as it was, except for the parent type and the
    orientation of scroll views. Missing for the full claim: these two fields (see [C37_exact], [C37_refuted]). *)
Theorem C37_partial l F : parse_raw_layout l = Ok F ->
  exists out : list (android_view * N * android_view),
    Permutation (map (fun x => fst (fst x)) out) l /\ Permutation (map snd out) (flatten_views F None None) /\
    forall a t b, In (a, t, b) out ->
      rewritten a t b /\
      ((av_parent a = Some (lit "root") /\ t = 0) \/
       (exists c, In c l /\ av_parent a = Some (av_id c) /\ av_id c <> lit "root" /\ t = seen_type c)).
Proof.
  intros H. destruct (flatten_parsed _ _ H) as (ps & P1 & P2 & P3).
  exists (map (fun x => (fst x, snd x, written (fst x) (snd x))) ps). rewrite !map_map. cbn [fst snd].
  split; [exact P1|]. split; [now symmetry|].
  intros a t b I. apply in_map_iff in I as ([a' t'] & [= -> -> <-] & I). split.
  - unfold rewritten, written, fix_orientation. repeat split.
  - destruct (P3 _ _ I) as [|(c & C1 & C2 & C3 & C4)]; [auto|]. right. exists c. auto.
Qed.
Print Assumptions C37_partial.

(** what a view must satisfy to be written unchanged *)
Definition consistent (l : list android_view) (a : android_view) : Prop :=
  (av_parent a = Some (lit "root") -> av_parent_type a = 0%Z) /\
  (forall c, In c l -> av_parent a = Some (av_id c) -> av_id c <> lit "root" -> av_parent_type a = i8_of_u8 (seen_type c)) /\
  (av_type a = 2 -> lc_orientation (av_layout a) = LoHorizontal) /\
  (av_type a = 12 -> lc_orientation (av_layout a) = LoVertical).
(** With distinct ids the flattened layout is the original one, up to order, exactly when every view is consistent. *)
Theorem C37_exact l F : parse_raw_layout l = Ok F -> NoDup (map av_id l) ->
  (Permutation (flatten_views F None None) l <-> forall a, In a l -> consistent l a).
Proof.
  intros H ND. destruct (flatten_parsed _ _ H) as (ps & P1 & P2 & P3).
  assert (U : forall b c, In b l -> In c l -> av_id b = av_id c -> b = c).
  { clear -ND. induction l as [|x r IH]; [intros b c []|]. cbn in ND. apply NoDup_cons_iff in ND as [N1 N2].
    intros b c [->|Hb] [->|Hc] E; auto; exfalso; apply N1; [rewrite E|rewrite <- E]; now apply in_map. }
  assert (Q : forall x, In x ps -> In (fst x) l) by (intros x I; eapply Permutation_in; [exact P1|]; now apply in_map).
  split.
  - intros P. assert (K : forall x, In x ps -> written (fst x) (snd x) = fst x).
    { apply (perm_keyed av_id).
      - intros x. apply written_id.
      - eapply Permutation_NoDup; [|exact ND]. apply Permutation_map. now symmetry.
      - rewrite <- P2, P. now symmetry. }
    intros a Ia. assert (Ip : In a (map fst ps)) by (eapply Permutation_in; [symmetry; exact P1|auto]).
    apply in_map_iff in Ip as ([a' t] & E & I). cbn in E. subst a'.
    pose proof (proj1 (written_same _ _) (K _ I)) as (W1 & W2 & W3). cbn [fst snd] in *.
    destruct (P3 _ _ I) as [[A1 ->]|(c & C1 & C2 & -> & C4)]; repeat split; auto.
    + intros d Hd D1 D2. rewrite A1 in D1. injection D1 as D1. exfalso. apply D2. now rewrite <- D1.
    + intros A1. rewrite A1 in C2. injection C2 as C2. exfalso. apply C4. now rewrite <- C2.
    + intros d Hd D1 D2. rewrite W1. f_equal. f_equal. apply U; auto. congruence.
  - intros C. rewrite P2. rewrite <- P1.
    replace (map (fun x => written (fst x) (snd x)) ps) with (map fst ps); auto.
    apply map_ext_in. intros [a t] I. symmetry. apply written_same. cbn [fst snd].
    destruct (C a (Q _ I)) as (C1 & C2 & C3 & C4). split; [|auto].
    destruct (P3 _ _ I) as [[A1 ->]|(c & D1 & D2 & -> & D4)]; [rewrite C1; auto|]. now apply C2.
Qed.
Print Assumptions C37_exact.
Example C37_example :
  let l := [mk "linear1" 0 "root" 0; mk "hscroll" 4 "linear1" 0; mk "text2" 4 "linear1" 0] in
  exists F, parse_raw_layout l = Ok F /\ NoDup (map av_id l) /\ (forall a, In a l -> consistent l a) /\
            flatten_views F None None = l.
Proof.
  cbv zeta. eexists. split; [vm_compute; reflexivity|]. split; [repeat constructor; cbn; intuition congruence|]. split.
  - intros a [<-|[<-|[<-|[]]]]; (split; [vm_compute; congruence|]); (split; [|split; vm_compute; congruence]);
      intros c [<-|[<-|[<-|[]]]]; vm_compute; intros; congruence.
  - vm_compute. reflexivity.
Qed.

(** a text view inside a vertical scroll view (type 12) is written with parent type 2 *)
Theorem C37_refuted : ~ (forall l F, parse_raw_layout l = Ok F -> Permutation (flatten_views F None None) l).
Proof.
  intros H. set (l := [mk "vscroll1" 12 "root" 0; mk "text1" 4 "vscroll1" 12]).
  assert (P : exists F, parse_raw_layout l = Ok F) by (eexists; vm_compute; reflexivity).
  destruct P as (F & P). pose proof (H _ _ P) as Q.
  assert (ND : NoDup (map av_id l)) by (repeat constructor; cbn; intuition congruence).
  apply (C37_exact _ _ P ND) with (a := mk "text1" 4 "vscroll1" 12) in Q; [|right; now left].
  destruct Q as (_ & Q & _). specialize (Q (mk "vscroll1" 12 "root" 0) (or_introl eq_refl)). vm_compute in Q.
  specialize (Q eq_refl). assert (K : 12%Z = 2%Z) by (apply Q; congruence). discriminate K.
Qed.
Print Assumptions C37_refuted.

(** ** C38 *)
Theorem C38_accepts l : (exists F, parse_raw_layout l = Ok F) <->
  forall before a after, l = before ++ a :: after ->
    exists p, av_parent a = Some p /\ (p = lit "root" \/ exists b, In b before /\ av_id b = p).
Proof.
  unfold parse_raw_layout. rewrite steps_ok. split; intros H pre a post E; destruct (H pre a post E) as (p & P1 & P2); exists p; split; auto.
  - cbn [fids flat_map] in P2. rewrite app_nil_r in P2. destruct P2 as [->|P2]; [now left|right].
    apply in_map_iff in P2 as (b & B1 & B2). eauto.
  - cbn [fids flat_map]. rewrite app_nil_r. destruct P2 as [->|(b & B1 & <-)]; [now left|right]. now apply in_map.
Qed.
Print Assumptions C38_accepts.
(** the tree holds exactly the views of the list *)
Theorem C38_no_loss l F : parse_raw_layout l = Ok F -> Permutation (map vn_raw (flat_map nodes F)) l.
Proof.
  intros H. apply parse_grow, grow_nodes in H. rewrite !nodes_eq in H. cbn [flat_map] in H.
  rewrite <- Permutation_middle, app_nil_r in H. apply Permutation_cons_inv in H.
  rewrite H, map_map. cbn. now rewrite map_id.
Qed.
Print Assumptions C38_no_loss.
Theorem C38_count l F : parse_raw_layout l = Ok F -> length (flat_map preorder F) = length l.
Proof.
  intros H. apply C38_no_loss in H. apply Permutation_length in H. rewrite map_length in H. rewrite <- H. clear.
  induction F as [|v r IH]; cbn; auto. rewrite !app_length. unfold nodes. now rewrite map_length, IH.
Qed.
Print Assumptions C38_count.
(** the error names the first view without a known parent; there is no panic *)
Theorem C38_error l e : parse_raw_layout l = Err e <->
  exists before a after, l = before ++ a :: after /\ (exists F, parse_raw_layout before = Ok F) /\
    ((av_parent a = None /\ e = NoParentField (av_id a)) \/
     exists p, av_parent a = Some p /\ p <> lit "root" /\ ~ (exists b, In b before /\ av_id b = p) /\ e = NonexistentParent (av_id a) p).
Proof.
  unfold parse_raw_layout. rewrite steps_err. split.
  - intros (pre & a & post & F1 & -> & H1 & H2). exists pre, a, post. split; auto. split; eauto.
    destruct H2 as [|(p & P1 & P2 & P3 & P4)]; auto. right. exists p. repeat split; auto.
    intros (b & B1 & B2). apply P3. eapply Permutation_in; [symmetry; eapply steps_ids; eauto|].
    apply in_app_iff. left. rewrite <- B2. now apply in_map.
  - intros (pre & a & post & -> & (F1 & H1) & H2). exists pre, a, post, F1. repeat split; auto.
    destruct H2 as [|(p & P1 & P2 & P3 & P4)]; auto. right. exists p. repeat split; auto.
    intros I. apply P3. eapply Permutation_in in I; [|eapply steps_ids; eauto]. cbn [fids flat_map] in I.
    rewrite app_nil_r in I. apply in_map_iff in I as (b & B1 & B2). eauto.
Qed.
Print Assumptions C38_error.
Theorem C38_no_panic l : parse_raw_layout l <> Panic.
Proof. apply steps_no_panic. Qed.
Print Assumptions C38_no_panic.
(** duplicate ids are accepted: the second [a] ends up below the first *)
Example C38_example :
  (exists F, parse_raw_layout [mk "a" 0 "root" 0; mk "a" 0 "a" 0; mk "b" 4 "a" 0] = Ok F /\ length (flat_map preorder F) = 3%nat) /\
  parse_raw_layout [mk "a" 0 "root" 0; mk "b" 4 "c" 0; mk "c" 0 "root" 0] = Err (NonexistentParent (lit "b") (lit "c")).
Proof. split; [eexists; split; vm_compute; reflexivity|vm_compute; reflexivity]. Qed.

(** ** C39 *)
(** The number reported for a recognised view is its own exactly for the types up to 11. Missing for the full claim:
    the types 12 to 18, and the type number of flattened views (see [C39_flattened], [C39_refuted]). *)
Theorem C39_partial v t : from_view v = inl t -> (get_type_id t = av_type v <-> av_type v <= 11).
Proof.
  intros H. pose proof (reported_seen v) as R. unfold reported in R. cbn [attrs_of vn_view] in R. rewrite H in R. rewrite R.
  unfold seen_type. rewrite (from_view_at _ _ eq_refl) in H.
  destruct (type_cases (av_type v)) as [E|[E|[E|[E|[E|[E|[E|[E|[E|[E|[E|[E|[E|[E|[E|[E|[E|[E|[E|Hk]]]]]]]]]]]]]]]]]]].
  20:{ rewrite (from_view_big _ _ Hk) in H. discriminate. }
  all: rewrite E in *; cbn in H |- *; try (split; intros; [lia|reflexivity]); try (split; intros; lia).
  destruct (ic_res_name (av_image v)); [|discriminate]. cbn. split; intros; lia.
Qed.
Print Assumptions C39_partial.
(** the type number written for a view is that of its raw view, whatever its [view] value is *)
Theorem C39_flattened F : Permutation (map av_type (flatten_views F None None)) (map (fun n => av_type (vn_raw n)) (flat_map nodes F)).
Proof.
  assert (T : forall v p t, Permutation (map av_type (fst (flatten_view v p t) :: snd (flatten_view v p t)))
                              (map (fun n => av_type (vn_raw n)) (nodes v))).
  { induction v as [n ch IH] using aview_induct. intros p t. rewrite flatten_view_eq, nodes_eq. cbn [fst snd map].
    rewrite flatten_node_raw_type. constructor. rewrite perm_heads. generalize (vn_id n) (reported n). intros i ty.
    induction IH as [|x r Hx _ IHr]; cbn [flat_map]; auto. rewrite !map_app. apply (Permutation_app (Hx i ty)). exact IHr. }
  rewrite flatten_forest, flatten_view_eq. cbn [snd]. rewrite perm_heads.
  induction F as [|v r IH]; cbn [flat_map]; auto. rewrite !map_app. now apply (Permutation_app (T v _ _)).
Qed.
Print Assumptions C39_flattened.
Example C39_example :
  exists t, from_view (mk "edit1" 5 "root" 0) = inl t /\ get_type_id t = 5 /\
  map av_type (flatten_views forest1 None None) = [0; 18; 4; 12; 11; 14].
Proof. eexists. split; [vm_compute; reflexivity|]. split; vm_compute; reflexivity. Qed.
Theorem C39_refuted :
  ~ (forall v t, from_view v = inl t -> get_type_id t = av_type v) /\
  ~ (forall n p ty t, vn_view n = inl t -> av_type (snd (flatten_node n p ty)) = get_type_id t).
Proof.
  split.
  - intros H. specialize (H (mk "switch1" 13 "root" 0) _ eq_refl). vm_compute in H. discriminate.
  - intros H. specialize (H (attrs_of (mk "vscroll1" 12 "root" 0)) ROOT 0 _ eq_refl). vm_compute in H. discriminate.
Qed.
Print Assumptions C39_refuted.

(** ** C40 *)
(** the first view in document order *)
Theorem C40_find_id id v : find_id id v = find (fun u => str_eqb (vid u) id) (preorder v).
Proof. apply find_id_first. Qed.
Print Assumptions C40_find_id.
Theorem C40_found id v : (exists w, find_id id v = Some w) <-> In id (map vid (preorder v)).
Proof.
  rewrite C40_find_id. rewrite in_map_iff. split.
  - intros (w & H). apply find_some in H as [H1 H2]. exists w. split; auto. now destruct (str_eqb_spec (vid w) id).
  - intros (w & <- & I). destruct (find (fun u => str_eqb (vid u) (vid w)) (preorder v)) as [u|] eqn:E; eauto.
    apply (find_none _ _ E) in I. now rewrite str_eqb_refl in I.
Qed.
Print Assumptions C40_found.
(** [find_id_mut] points to the same view, and writing through the reference replaces exactly the subtree at the
    position of that view, which is the first position in document order with this id *)
Theorem C40_find_id_mut id v w put : find_id_mut id v = Some (w, put) ->
  find_id id v = Some w /\
  exists p, subtree p v = Some w /\ vid w = id /\ (forall w', put w' = replace_at p w' v) /\
            forall q u, subtree q v = Some u -> vid u = id -> q = p \/ before p q.
Proof.
  intros H. rewrite <- find_id_mut_same, H. split; auto. pose proof (find_id_mut_spec id v) as S. now rewrite H in S.
Qed.
Print Assumptions C40_find_id_mut.
Theorem C40_same id v : find_id_mut id v = None <-> find_id id v = None.
Proof. rewrite <- find_id_mut_same. now destruct (find_id_mut id v). Qed.
Print Assumptions C40_same.
(** two views with the same id: the one that comes first in document order is found although it is deeper *)
Example C40_example :
  let t := VNode (attrs_of (mk "a" 0 "root" 0)) [VNode (attrs_of (mk "b" 0 "a" 0)) [leafv "x" 4]; leafv "x" 11] in
  find_id (lit "x") t = Some (leafv "x" 4) /\
  exists put, find_id_mut (lit "x") t = Some (leafv "x" 4, put) /\
    map vid (preorder (put (leafv "y" 0))) = [lit "a"; lit "b"; lit "y"; lit "x"].
Proof. cbv zeta. split; [vm_compute; reflexivity|]. eexists. split; [reflexivity|]. vm_compute. reflexivity. Qed.
