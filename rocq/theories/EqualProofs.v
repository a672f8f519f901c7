(** Proofs about the derived equality. *)
From Verif Require Import Base Flt Json M_View A_Block A_View A_Screen A_Project SpecBlock SpecResave BlockWriteProofs ViewFlatProofs ViewTreeProofs A_Equal SpecEqual.

(** [R] is equality of normal forms for values that are [ok] *)
Definition norm_at {A} (R : A -> A -> Prop) (n : A -> A) (ok : A -> Prop) (x : A) : Prop := forall y, R x y <-> ok x /\ n x = n y.
Lemma flt_norm x : norm_at flt_same positive number x.
Proof.
  intros y. unfold number. destruct x as [|a|a|a m e], y as [|b|b|b m' e']; cbn [flt_same positive];
    (split; [intros H; first [contradiction|split; [discriminate|congruence]]|intros [H1 H2]; first [discriminate|now destruct H1|congruence|exact Logic.I]]).
Qed.
Lemma list_norm {A} (R : A -> A -> Prop) n ok l : Forall (norm_at R n ok) l -> norm_at (list_same R) (map n) (Forall ok) l.
Proof.
  induction 1 as [|x l Hx _ IH]; intros [|y l']; cbn [list_same map]; [split; auto|split; [contradiction|intros [_ H]; discriminate]..|].
  rewrite (Hx y), (IH l'), Forall_cons_iff. split.
  - intros ([H1 H2] & H3 & H4). rewrite H2, H4. auto.
  - intros ((H1 & H2) & E). injection E as E1 E2. auto.
Qed.
Definition some_ok {A} (ok : A -> Prop) (o : option A) : Prop := match o with Some x => ok x | None => True end.
Lemma option_norm {A} (R : A -> A -> Prop) n ok o : some_ok (norm_at R n ok) o -> norm_at (option_same R) (option_map n) (some_ok ok) o.
Proof.
  destruct o as [x|]; intros H [y|]; cbn [option_same option_map some_ok] in *; [|split; [contradiction|intros [_ E]; discriminate]..|split; auto].
  rewrite (H y). split; [intros [H1 ->]; auto|]. intros [H1 E]. injection E as E. auto.
Qed.
Lemma entry_norm {K A} (R : A -> A -> Prop) n ok (x : K * A) : norm_at R n ok (snd x) -> norm_at (entry_same R) (fun y => (fst y, n (snd y))) (fun y => ok (snd y)) x.
Proof.
  intros H y. unfold entry_same. rewrite (H (snd y)). split; [intros (-> & H1 & ->); auto|]. intros (H1 & E). injection E as E1 E2. auto.
Qed.
Lemma all_norm {A} (R : A -> A -> Prop) n ok : (forall x, norm_at R n ok x) -> forall l, Forall (norm_at R n ok) l.
Proof. intros H l. apply Forall_forall. intros x _. apply H. Qed.

(** ** Raw views *)
Ltac pk P := match goal with |- positive (?f _) = _ => exact (P _ f) | |- ?f _ = _ => exact (P _ f) end.
Lemma view_norm v : norm_at view_same positive_view view_numbers v.
Proof.
  intros w. unfold view_same, view_numbers. rewrite !(flt_norm _ _). split.
  - intros H. decompose [and] H. clear H. split; [split; [assumption|split; [assumption|split; [assumption|split; assumption]]]|]. unfold positive_view.
    repeat match goal with X : ?a v = ?a w |- _ => rewrite X; clear X | X : positive (?a v) = _ |- _ => rewrite X; clear X end. reflexivity.
  - intros (H & E). assert (P : forall A (f : android_view -> A), f (positive_view v) = f (positive_view w)) by (intros A f; now rewrite E). clear E.
    destruct H as (H1 & H2 & H3 & H4 & H5).
    repeat (split; [first [pk P|split; [assumption|pk P]]|]). pk P.
Qed.

(** ** Blocks *)
Lemma value_norm {T} (g : T -> T -> Prop) n ok (v : arg_value ablock T) : (forall t, norm_at g n ok t) -> value_all (norm_at block_same positive_block block_numbers) v ->
  norm_at (value_same block_same g) (value_positive positive_block n) (fun v => value_all block_numbers v /\ match v with AValue t => ok t | _ => True end) v.
Proof.
  intros G H w. destruct v as [t|b|i|], w as [u|c|j|]; cbn [value_same value_positive value_all] in *; try (split; [contradiction|intros [_ E]; discriminate]).
  - rewrite (G t u). split; [intros [H1 ->]; auto|]. intros [[_ H1] E]. injection E as E. auto.
  - rewrite (H c). split; [intros [H1 ->]; auto|]. intros [[H1 _] E]. injection E as E. auto.
  - split; [intros ->; auto|]. intros [_ E]. now injection E as E.
  - split; auto.
Qed.
Lemma eq_norm {T} (t : T) : norm_at eq (fun x => x) (fun _ => True) t.
Proof. intros u. tauto. Qed.
Lemma item_norm i : item_all (norm_at block_same positive_block block_numbers) i ->
  norm_at (item_same block_same) (item_positive positive_block) (fun i => item_number i /\ item_all block_numbers i) i.
Proof.
  intros H j. destruct i as [s|[n v|n v|n v|n v]].
  { destruct j as [t|[m w|m w|m w|m w]]; cbn [item_same item_positive item_number item_all]; split; try contradiction; try (intros [_ E]; discriminate); [intros ->; auto|]. intros [_ E]. now injection E as E. }
  all: cbn [item_all] in H;
    (pose proof (value_norm flt_same positive number v flt_norm H) as V || pose proof (value_norm eq (fun t => t) (fun _ => True) v eq_norm H) as V);
    destruct j as [t|[m w|m w|m w|m w]]; cbn [item_same arg_same item_positive item_number item_all]; try (split; [contradiction|intros [_ E]; discriminate]);
    rewrite (V w); (split; [intros (-> & (H1 & H2) & ->); split; [split; [|exact H1]|reflexivity]; destruct v; auto|intros ((H1 & H2) & E); injection E as E1 E2; split; [exact E1|split; [split; [exact H2|]|exact E2]]; destruct v; auto]).
Qed.
Lemma stack_forall {P : ablock -> Prop} l : stack_all P l <-> Forall P l.
Proof. induction l as [|b l IH]; cbn [stack_all]; [split; auto|]. now rewrite Forall_cons_iff, IH. Qed.
Lemma items_forall {P : ablock -> Prop} l : items_all P l <-> Forall (item_all P) l.
Proof. induction l as [|b l IH]; cbn [items_all]; [split; auto|]. now rewrite Forall_cons_iff, IH. Qed.
Lemma sub_some {P : ablock -> Prop} s : sub_all P s <-> some_ok (Forall P) s.
Proof. destruct s as [l|]; cbn [sub_all some_ok]; [apply stack_forall|tauto]. Qed.
Lemma items_norm l : items_all (norm_at block_same positive_block block_numbers) l ->
  norm_at (list_same (item_same block_same)) (map (item_positive positive_block)) spec_numbers l.
Proof.
  intros H y.
  assert (X : norm_at (list_same (item_same block_same)) (map (item_positive positive_block)) (Forall (fun i => item_number i /\ item_all block_numbers i)) l).
  { apply list_norm. rewrite items_forall in H. eapply Forall_impl; [|exact H]. apply item_norm. }
  rewrite (X y). unfold spec_numbers. rewrite items_forall, !Forall_forall. firstorder.
Qed.
Lemma block_norm b : norm_at block_same positive_block block_numbers b.
Proof.
  induction b as [s1 s2 col op items ty Q1 Q2 Q] using ablock_induct. intros [s1' s2' col' op' items' ty']. cbn [block_same positive_block].
  assert (X : forall s, sub_all (norm_at block_same positive_block block_numbers) s -> norm_at (option_same (list_same block_same)) (option_map (map positive_block)) (sub_all block_numbers) s).
  { intros s Qs y. rewrite sub_some. apply option_norm. apply sub_some in Qs. destruct s as [l|]; [|exact Logic.I]. now apply list_norm. }
  rewrite (X s1 Q1 s1'), (X s2 Q2 s2'), (items_norm items Q items'). unfold block_numbers, spec_numbers. cbn [everywhere ab_content]. fold block_numbers. split.
  - intros ((A1 & A2) & (B1 & B2) & -> & -> & ((C1 & C3) & C2) & ->). rewrite A2, B2, C2. auto.
  - intros ((C1 & C3 & A1 & B1) & E). injection E as. auto 10.
Qed.
Lemma blocks_norm l : norm_at blocks_same (map positive_block) (Forall block_numbers) l.
Proof. apply list_norm, all_norm, block_norm. Qed.
Lemma spec_norm l : norm_at (list_same (item_same block_same)) (map (item_positive positive_block)) spec_numbers l.
Proof. apply items_norm. apply items_forall, Forall_forall. intros [t|[n v|n v|n v|n v]] _; cbn [item_all]; auto; destruct v; cbn [value_all]; auto; apply block_norm. Qed.

(** ** Views *)
Lemma aview_norm v : norm_at aview_same positive_aview aview_numbers v.
Proof.
  induction v as [n ch IH] using aview_induct. intros [m ch']. cbn [aview_same positive_aview aview_numbers].
  rewrite (list_norm _ _ _ _ IH ch').
  assert (F : forall l, (fix all l := match l with [] => True | x :: r => aview_numbers x /\ all r end) l <-> Forall aview_numbers l).
  { induction l as [|x l IHl]; [split; auto|]. rewrite Forall_cons_iff, <- IHl. reflexivity. }
  rewrite F. unfold attrs_same. rewrite (view_norm _ _). split.
  - intros (H & H1 & H2). decompose [and] H. split; [auto|]. rewrite H2. f_equal. f_equal; assumption.
  - intros ((H1 & H2) & E). pose proof (f_equal vnode E) as E1. pose proof (f_equal vchildren E) as E2. cbn [vnode vchildren] in E1, E2. clear E.
    split; [|split; [exact H2|exact E2]].
    repeat (split; [match goal with |- ?f _ = _ => exact (f_equal f E1) end|]). split; [exact H1|]. exact (f_equal vn_raw E1).
Qed.
Lemma aviews_norm l : norm_at (list_same aview_same) (map positive_aview) (Forall aview_numbers) l.
Proof. apply list_norm, all_norm, aview_norm. Qed.
(** ** Screens and projects *)
Definition positive_more (m : amore_block) : amore_block :=
  {| am_name := am_name m; am_spec := map (item_positive positive_block) (am_spec m); am_code := map positive_block (am_code m) |}.
Lemma more_norm m : norm_at more_block_same positive_more (fun m => spec_numbers (am_spec m) /\ Forall block_numbers (am_code m)) m.
Proof.
  intros w. unfold more_block_same. rewrite (spec_norm _ _), (blocks_norm _ _). unfold positive_more. split.
  - intros (-> & (H1 & ->) & H2 & ->). auto.
  - intros ((H1 & H2) & E). injection E as. auto.
Qed.
Definition positive_event (e : aevent) : aevent := {| ae_name := ae_name e; ae_type := ae_type e; ae_code := map positive_block (ae_code e) |}.
Lemma event_norm e : norm_at event_same positive_event (fun e => Forall block_numbers (ae_code e)) e.
Proof.
  intros w. unfold event_same. rewrite (blocks_norm _ _). unfold positive_event. split.
  - intros (-> & -> & H2 & ->). auto.
  - intros (H1 & E). injection E as. auto.
Qed.
Lemma screen_norm s : norm_at screen_same positive_screen screen_numbers s.
Proof.
  intros t. unfold screen_same. rewrite (aviews_norm _ _), (list_norm _ _ _ _ (all_norm _ _ _ (fun x => entry_norm _ _ _ x (more_norm (snd x))) _) _),
    (list_norm _ _ _ _ (all_norm _ _ _ event_norm _) _).
  assert (F : norm_at (option_same aview_same) (option_map positive_aview) (some_ok aview_numbers) (sc_fab s)) by (apply option_norm; destruct (sc_fab s); [apply aview_norm|exact Logic.I]).
  rewrite (F _). unfold screen_numbers.
  assert (G : some_ok aview_numbers (sc_fab s) <-> forall v, sc_fab s = Some v -> aview_numbers v).
  { destruct (sc_fab s) as [v|]; cbn [some_ok]; split; auto; try discriminate. intros H w E. injection E as <-. exact H. }
  rewrite G. split.
  - intros (E1 & E2 & (N3 & E3) & E4 & E5 & (N6 & E6) & E7 & (N8 & E8) & (N9 & E9) & E10 & E11 & E12 & E13 & E14 & E15 & E16). split; [auto|]. unfold positive_screen.
    change (fun kv : str * amore_block => (fst kv, {| am_name := am_name (snd kv); am_spec := map (item_positive positive_block) (am_spec (snd kv)); am_code := map positive_block (am_code (snd kv)) |}))
      with (fun kv : str * amore_block => (fst kv, positive_more (snd kv))).
    change (fun e : aevent => {| ae_name := ae_name e; ae_type := ae_type e; ae_code := map positive_block (ae_code e) |}) with positive_event.
    rewrite E1, E2, E3, E4, E5, E6, E7, E8, E9, E10, E11, E12, E13, E14, E15, E16. reflexivity.
  - intros ((N3 & N6 & N8 & N9) & E). assert (P : forall A (f : screen -> A), f (positive_screen s) = f (positive_screen t)) by (intros A f; now rewrite E). clear E.
    split; [exact (P _ sc_layout_name)|]. split; [exact (P _ sc_java_name)|]. split; [split; [exact N3|exact (P _ sc_layout)]|].
    split; [exact (P _ sc_variables)|]. split; [exact (P _ sc_list_variables)|]. split; [split; [exact N6|exact (P _ sc_more_blocks)]|].
    split; [exact (P _ sc_components)|]. split; [split; [exact N8|exact (P _ sc_events)]|]. split; [split; [exact N9|exact (P _ sc_fab)]|].
    split; [exact (P _ sc_fullscreen)|]. split; [exact (P _ sc_toolbar)|]. split; [exact (P _ sc_drawer)|]. split; [exact (P _ sc_fab_enabled)|].
    split; [exact (P _ sc_orientation)|]. split; [exact (P _ sc_theme)|exact (P _ sc_keyboard)].
Qed.
Definition positive_custom (c : custom_view) : custom_view := {| cv_res_name := cv_res_name c; cv_layout := map positive_aview (cv_layout c) |}.
Lemma custom_norm c : norm_at custom_view_same positive_custom (fun c => Forall aview_numbers (cv_layout c)) c.
Proof.
  intros d. unfold custom_view_same. rewrite (aviews_norm _ _). unfold positive_custom. split.
  - intros (-> & H & ->). auto.
  - intros (H & E). injection E as. auto.
Qed.
Lemma project_norm p : norm_at project_same positive_project project_numbers p.
Proof.
  intros q. unfold project_same. rewrite (list_norm _ _ _ _ (all_norm _ _ _ screen_norm _) _), (list_norm _ _ _ _ (all_norm _ _ _ custom_norm _) _). unfold project_numbers. split.
  - intros (E1 & E2 & E3 & (N4 & E4) & (N5 & E5) & E6 & E7 & E8). split; [auto|]. unfold positive_project.
    change (fun c : custom_view => {| cv_res_name := cv_res_name c; cv_layout := map positive_aview (cv_layout c) |}) with positive_custom.
    rewrite E1, E2, E3, E4, E5, E6, E7, E8. reflexivity.
  - intros ((N4 & N5) & E). assert (P : forall A (f : sw_project -> A), f (positive_project p) = f (positive_project q)) by (intros A f; now rewrite E). clear E.
    split; [exact (P _ sp_custom_icon)|]. split; [exact (P _ sp_metadata)|]. split; [exact (P _ sp_colors)|]. split; [split; [exact N4|exact (P _ sp_screens)]|].
    split; [split; [exact N5|exact (P _ sp_custom_views)]|]. split; [exact (P _ sp_libraries)|]. split; [exact (P _ sp_resources)|exact (P _ sp_automatic)].
Qed.

(** ** Being a number does not depend on the sign of zeros *)
Lemma positive_number x : number (positive x) <-> number x.
Proof. unfold number. destruct x; cbn [positive]; split; intros H E; first [discriminate|now apply H]. Qed.
Lemma forall_positive {A} (ok : A -> Prop) n l : Forall (fun x => ok (n x) <-> ok x) l -> (Forall ok (map n l) <-> Forall ok l).
Proof. induction 1 as [|x l H _ IH]; cbn [map]; [split; constructor|]. now rewrite !Forall_cons_iff, H, IH. Qed.
Lemma forall_positive' {A} (ok : A -> Prop) n l : (forall x, ok (n x) <-> ok x) -> (Forall ok (map n l) <-> Forall ok l).
Proof. intros H. apply forall_positive, Forall_forall. auto. Qed.
Lemma positive_view_numbers v : view_numbers (positive_view v) <-> view_numbers v.
Proof. unfold view_numbers, positive_view. cbn [av_alpha av_scale_x av_scale_y av_translation_x av_translation_y]. now rewrite !positive_number. Qed.
Definition kept_number (b : ablock) : Prop := block_numbers (positive_block b) <-> block_numbers b.
Lemma positive_item_number i : item_number (item_positive positive_block i) <-> item_number i.
Proof. destruct i as [t|[n v|n v|n v|n v]]; cbn [item_positive item_number]; try tauto. destruct v; cbn [value_positive]; try tauto. apply positive_number. Qed.
Lemma positive_item_all i : item_all kept_number i -> (item_all block_numbers (item_positive positive_block i) <-> item_all block_numbers i).
Proof. destruct i as [t|[n v|n v|n v|n v]]; cbn [item_positive item_all]; unfold kept_number; try tauto; destruct v; cbn [value_positive value_all]; tauto. Qed.
Lemma positive_items_all l : items_all kept_number l -> (items_all block_numbers (map (item_positive positive_block) l) <-> items_all block_numbers l).
Proof. rewrite !items_forall. intros H. apply forall_positive. eapply Forall_impl; [|exact H]. apply positive_item_all. Qed.
Lemma positive_sub_all s : sub_all kept_number s -> (sub_all block_numbers (option_map (map positive_block) s) <-> sub_all block_numbers s).
Proof. destruct s as [l|]; cbn [option_map sub_all]; [|tauto]. rewrite !stack_forall. apply forall_positive. Qed.
Lemma positive_block_numbers b : block_numbers (positive_block b) <-> block_numbers b.
Proof.
  induction b as [s1 s2 col op items ty Q1 Q2 Q] using ablock_induct. unfold block_numbers. cbn [positive_block everywhere ab_content]. fold block_numbers.
  rewrite (positive_items_all _ Q), (positive_sub_all _ Q1), (positive_sub_all _ Q2), (forall_positive' item_number _ items positive_item_number). tauto.
Qed.
Lemma positive_spec_numbers l : spec_numbers (map (item_positive positive_block) l) <-> spec_numbers l.
Proof.
  unfold spec_numbers. rewrite (forall_positive' item_number _ _ positive_item_number), positive_items_all; [tauto|]. apply items_forall, Forall_forall.
  intros [t|[n v|n v|n v|n v]] _; cbn [item_all]; auto; destruct v; cbn [value_all]; auto; apply positive_block_numbers.
Qed.
Lemma aview_numbers_eq n ch : aview_numbers (VNode n ch) <-> view_numbers (vn_raw n) /\ Forall aview_numbers ch.
Proof.
  assert (F : forall l, (fix all l := match l with [] => True | x :: r => aview_numbers x /\ all r end) l <-> Forall aview_numbers l).
  { induction l as [|x l IHl]; [split; auto|]. rewrite Forall_cons_iff, <- IHl. reflexivity. }
  cbn [aview_numbers]. now rewrite F.
Qed.
Lemma positive_aview_numbers v : aview_numbers (positive_aview v) <-> aview_numbers v.
Proof.
  induction v as [n ch IH] using aview_induct. cbn [positive_aview]. rewrite !aview_numbers_eq. cbn [vn_raw]. rewrite positive_view_numbers, (forall_positive _ _ _ IH). tauto.
Qed.
Lemma positive_screen_numbers s : screen_numbers (positive_screen s) <-> screen_numbers s.
Proof.
  unfold screen_numbers, positive_screen. cbn [sc_layout sc_more_blocks sc_events sc_fab]. rewrite (forall_positive' _ _ _ positive_aview_numbers).
  rewrite (forall_positive' (fun kv : str * amore_block => spec_numbers (am_spec (snd kv)) /\ Forall block_numbers (am_code (snd kv)))).
  2:{ intros [k m]. cbn [fst snd am_spec am_code]. rewrite positive_spec_numbers, (forall_positive' _ _ _ positive_block_numbers). tauto. }
  rewrite (forall_positive' (fun e => Forall block_numbers (ae_code e))).
  2:{ intros e. cbn [ae_code]. apply (forall_positive' _ _ _ positive_block_numbers). }
  assert (F : (forall v, option_map positive_aview (sc_fab s) = Some v -> aview_numbers v) <-> (forall v, sc_fab s = Some v -> aview_numbers v)).
  { destruct (sc_fab s) as [w|]; cbn [option_map]; [|split; discriminate || (intros H v E; discriminate E)]. split; intros H v E; injection E as <-; [apply positive_aview_numbers; auto|apply positive_aview_numbers, H; reflexivity]. }
  rewrite F. tauto.
Qed.
Lemma positive_project_numbers p : project_numbers (positive_project p) <-> project_numbers p.
Proof.
  unfold project_numbers, positive_project. cbn [sp_screens sp_custom_views]. rewrite (forall_positive' _ _ _ positive_screen_numbers).
  rewrite (forall_positive' (fun c => Forall aview_numbers (cv_layout c))); [tauto|]. intros c. cbn [cv_layout]. apply (forall_positive' _ _ _ positive_aview_numbers).
Qed.
(** so the relation is symmetric and transitive, and reflexive where there are only numbers *)
Lemma norm_refl {A} (R : A -> A -> Prop) n ok : (forall x, norm_at R n ok x) -> forall x, R x x <-> ok x.
Proof. intros H x. rewrite (H x x). tauto. Qed.
Lemma norm_sym {A} (R : A -> A -> Prop) n ok : (forall x, norm_at R n ok x) -> (forall x, ok (n x) <-> ok x) -> forall x y, R x y -> R y x.
Proof. intros H K x y. rewrite (H x y), (H y x), <- (K x), <- (K y). intros [O E]. now rewrite <- E. Qed.
Lemma norm_trans {A} (R : A -> A -> Prop) n ok : (forall x, norm_at R n ok x) -> forall x y z, R x y -> R y z -> R x z.
Proof. intros H x y z. rewrite (H x y), (H y z), (H x z). intros [O E] [_ E']. split; [exact O|congruence]. Qed.

(** ** What is read from a view file has only numbers *)
Lemma round_number f neg P Q : round_ratio f neg P Q <> FNan.
Proof.
  unfold round_ratio. destruct (P =? 0); [discriminate|]. destruct (scale2 _ _ _). cbv zeta.
  repeat match goal with |- (if ?c then _ else _) <> _ => destruct c; try discriminate | |- match ?c with _ => _ end <> _ => destruct c; try discriminate end.
Qed.
Lemma neg_number x : number (flt_neg x) <-> number x.
Proof. unfold number. destruct x; cbn [flt_neg]; split; intros H E; first [discriminate|now apply H]. Qed.
Lemma mul_number x y : number (fmul x y).
Proof. unfold number, fmul. destruct x, y; try discriminate. destruct (ratio_of _ _). apply round_number. Qed.
Lemma div_number x y : number (fdiv x y).
Proof. unfold number, fdiv. destruct x, y; try discriminate. destruct (ratio_of _ _), (ratio_of _ _). apply round_number. Qed.
Lemma parts_number fuel : forall f ex x, f64_from_parts fuel f ex = Some x -> number x.
Proof.
  induction fuel as [|k IH]; intros f ex x; cbn [f64_from_parts]; destruct (Z.abs ex <=? 308)%Z.
  1,3: destruct (0 <=? ex)%Z; [pose proof (mul_number f (round_ratio F64 false (10 ^ Z.to_N (Z.abs ex)) 1)) as H; destruct (fmul f _); intros E; try discriminate; injection E as <-; first [exact H|discriminate]|intros E; injection E as <-; apply div_number].
  - destruct f; try (destruct (0 <=? ex)%Z; intros E; [discriminate|injection E as <-; discriminate]). intros E. injection E as <-. discriminate.
  - destruct f; try (destruct (0 <=? ex)%Z; [discriminate|apply IH]). intros E. injection E as <-. discriminate.
Qed.
Lemma classify_number n x : classify n = NF64 x -> number x.
Proof.
  assert (S : forall b y, number y -> number (if b : bool then flt_neg y else y)) by (intros [] y H; [now apply neg_number|exact H]).
  assert (P : forall b fuel f ex, match f64_from_parts fuel f ex with Some y => NF64 (if b : bool then flt_neg y else y) | None => NRange end = NF64 x -> number x).
  { intros b fuel f ex H. destruct (f64_from_parts fuel f ex) as [y|] eqn:E; [|discriminate]. injection H as <-. eapply S, parts_number; eauto. }
  unfold classify. destruct (acc_int 0 (jint n)) as [sig ex0]. destruct (jfrac n) as [fr|], (jexp n) as [[eneg ds]|], (ex0 =? 0)%Z; cbv beta iota zeta;
    try (destruct (jneg n); [|discriminate]; destruct ((sig =? 0) || (9223372036854775808 <? sig))%bool; [|discriminate]; intros E; injection E as <-; apply neg_number, round_number);
    try (destruct (acc_frac sig ex0 _) as [sig2 ex1]).
  1,2,5,6: destruct (2147483647 <? digits_N ds); [destruct (negb (sig2 =? 0) && negb eneg)%bool; [discriminate|]; intros E; injection E as <-; destruct (jneg n); discriminate|].
  all: apply P.
Qed.
Lemma d_f32_number j x : d_f32 j = Some x -> number x.
Proof.
  unfold d_f32. destruct j as [| |n| | |]; try discriminate. destruct (classify n) as [v|v|y|] eqn:E; intros H; try discriminate; injection H as <-.
  - apply round_number.
  - apply neg_number, round_number.
  - apply classify_number in E. unfold f32_of_f64. destruct y; try exact E. destruct (ratio_of _ _). apply round_number.
Qed.
Lemma d_view_numbers j v : d_view j = Some v -> view_numbers v.
Proof.
  assert (R : forall o x, req d_f32 o = Some x -> number x) by (intros [j'|] x H; cbn [req] in H; [eapply d_f32_number; eauto|discriminate]).
  intros H. unfold d_view in H.
  repeat match type of H with
  | obind ?e _ = Some _ => let E := fresh "E" in destruct e eqn:E; cbn [obind] in H; [|discriminate H]
  | match ?l with [] => _ | _ :: _ => _ end = Some _ => destruct l; [discriminate H || idtac|discriminate H || idtac]
  end.
  all: try discriminate H.
  injection H as <-. unfold view_numbers. cbn [av_alpha av_scale_x av_scale_y av_translation_x av_translation_y]. repeat split; eapply R; eauto.
Qed.
