(** Lemmas about saving and loading a project any number of times. *)
From Coq Require Import Lia.
From Verif Require Import Base Str Flt Json M_Color M_Date M_Raw M_Project M_File M_Library M_Resource M_View M_Logic M_Parsed A_Block A_View A_Screen A_Project
  Spec SpecBlock SpecView SpecScreen SpecProject SpecLoad SpecSave SpecTwice ViewTreeProofs ViewFlatProofs ScreenProofs ApiProjectProofs SaveProofs
  P_View P_Parsed P_Screen P_ApiProject P_Save.

(** ** Views *)
Lemma from_view_written a t : from_view (written a t) = from_view a.
Proof.
  rewrite !(from_view_at _ _ eq_refl). unfold written.
  change (av_type (set_av_parent_type _ (in_layout _ a))) with (av_type a). unfold fix_orientation.
  destruct a as [x1 x2 x3 x4 x5 x6 x7 x8 x9 x10 x11 [i1 i2 i3] x13 x14 [l1 l2 l3 l4 l5 l6 l7 l8 l9 l10 l11 l12 l13 l14 l15 l16] x16 x17 x18 x19 x20 x21 x22 x23 x24 x25 x26 x27 [t1 t2 t3 t4 t5 t6 t7 t8 t9 t10 t11] x29 x30 ty].
  cbn [av_type].
  destruct (type_cases ty) as [->|[->|[->|[->|[->|[->|[->|[->|[->|[->|[->|[->|[->|[->|[->|[->|[->|[->|[->|Hk]]]]]]]]]]]]]]]]]]].
  20:{ now rewrite !(from_view_big _ _ Hk). }
  all: reflexivity.
Qed.
Lemma agrees_read a : agrees (attrs_of a).
Proof.
  unfold agrees. cbn [attrs_of vn_view vn_raw vn_id]. rewrite (from_view_at _ _ eq_refl).
  destruct (type_cases (av_type a)) as [E|[E|[E|[E|[E|[E|[E|[E|[E|[E|[E|[E|[E|[E|[E|[E|[E|[E|[E|Hk]]]]]]]]]]]]]]]]]]].
  20:{ rewrite (from_view_big _ _ Hk). auto. }
  all: rewrite E; cbn; auto.
  all: destruct (ic_res_name (av_image a)) eqn:R; cbn; auto.
Qed.
Lemma seen_written a t : seen_type (written a t) = seen_type a.
Proof. reflexivity. Qed.
Lemma written_written a t t' : written (written a t) t' = written a t'.
Proof.
  unfold written. destruct a as [x1 x2 x3 x4 x5 x6 x7 x8 x9 x10 x11 x12 x13 x14 [l1 l2 l3 l4 l5 l6 l7 l8 l9 l10 l11 l12 l13 l14 l15 l16] x16 x17 x18 x19 x20 x21 x22 x23 x24 x25 x26 x27 x28 x29 x30 ty].
  unfold fix_orientation. cbn. destruct (ty =? 2); [reflexivity|]. destruct (ty =? 12); reflexivity.
Qed.
Lemma back_back n p t t' : back (back n p t) p t' = attrs_of (written (snd (flatten_node n p t)) t').
Proof. unfold back at 1. unfold back. rewrite flatten_attrs; [reflexivity|apply flatten_node_parent]. Qed.
Lemma reported_back n p t : reported (back n p t) = seen_type (snd (flatten_node n p t)).
Proof. apply reported_seen. Qed.
(** the third time nothing changes *)
Lemma retree_settles v : forall p t0 t1, retree (retree (retree v p t0) p t1) p t1 = retree (retree v p t0) p t1.
Proof.
  induction v as [n ch IH] using aview_induct. intros p t0 t1. cbn [retree]. f_equal.
  - assert (E : snd (flatten_node (back n p t0) p t1) = written (snd (flatten_node n p t0)) t1) by (apply flatten_attrs, flatten_node_parent).
    rewrite back_back, E, written_written. unfold back at 1. now rewrite E.
  - rewrite !map_map. apply map_ext_in. intros c I. rewrite !back_id. rewrite back_back, reported_seen, seen_written, reported_back.
    rewrite Forall_forall in IH. apply IH. exact I.
Qed.
Definition relaid (F : list aview) : list aview := map (fun v => retree v ROOT 0) F.
Lemma relaid_settles F : relaid (relaid (relaid F)) = relaid (relaid F).
Proof. unfold relaid. rewrite !map_map. apply map_ext. intros v. apply retree_settles. Qed.
Lemma relaid_ids F : fids (relaid F) = fids F.
Proof. unfold relaid, fids. induction F as [|v F IH]; cbn [map flat_map]; [reflexivity|]. now rewrite retree_ids, IH. Qed.
Lemma relaid_ok F : layout_ok F -> layout_ok (relaid F).
Proof. unfold layout_ok. now rewrite relaid_ids. Qed.
Lemma relaid_reads F : layout_ok F -> parse_raw_layout (flatten_views F None None) = Ok (relaid F).
Proof. intros [A B]. now apply round_trip. Qed.
Lemma relaid_same F : layout_ok F -> same_layout F (relaid F).
Proof. intros L. destruct (layout_back F L) as (F' & P & S). rewrite (relaid_reads F L) in P. injection P as <-. exact S. Qed.

(** ** The floating button *)
Definition button_raw (n : vattrs) : android_view := set_av_parent_type (-1)%Z (set_av_parent None (snd (flatten_node n ROOT 0))).
Definition rebutton (v : aview) : aview := view_from (button_raw (vnode v)).
Lemma button_again n : button_raw (attrs_of (button_raw n)) = set_av_parent_type (-1)%Z (set_av_parent None (written (snd (flatten_node n ROOT 0)) 0)).
Proof.
  unfold button_raw at 1. set (a := snd (flatten_node n ROOT 0)). pose proof (flatten_node_parent n ROOT 0) as P. fold a in P.
  unfold button_raw. fold a. clearbody a.
  assert (E : snd (flatten_node (attrs_of (set_av_parent_type (-1)%Z (set_av_parent None a))) ROOT 0) = snd (flatten_node (attrs_of a) ROOT 0)).
  { destruct a. cbn in P. subst. reflexivity. }
  rewrite E, flatten_attrs by exact P. reflexivity.
Qed.
Lemma button_written a : av_parent a = Some ROOT -> button_raw (attrs_of (set_av_parent_type (-1)%Z (set_av_parent None a))) = set_av_parent_type (-1)%Z (set_av_parent None (written a 0)).
Proof.
  intros P. unfold button_raw.
  assert (E : snd (flatten_node (attrs_of (set_av_parent_type (-1)%Z (set_av_parent None a))) ROOT 0) = snd (flatten_node (attrs_of a) ROOT 0)).
  { destruct a. cbn in P. subst. reflexivity. }
  rewrite E, flatten_attrs by exact P. reflexivity.
Qed.
Lemma rebutton_settles v : rebutton (rebutton (rebutton v)) = rebutton (rebutton v).
Proof.
  unfold rebutton, view_from. cbn [vnode]. f_equal. f_equal. pose proof (flatten_node_parent (vnode v) ROOT 0) as P. unfold button_raw at 3 5.
  set (a := snd (flatten_node (vnode v) ROOT 0)) in *. clearbody a. rewrite (button_written a P). rewrite button_written by exact P. now rewrite written_written.
Qed.
Lemma rebutton_same v : same_fab (Some v) (Some (rebutton v)).
Proof. split; [apply fab_view|reflexivity]. Qed.

(** ** Screens and projects *)
Definition rescreen (s : screen) : screen :=
  {| sc_layout_name := sc_layout_name s; sc_java_name := sc_java_name s; sc_layout := relaid (sc_layout s); sc_variables := sc_variables s;
     sc_list_variables := sc_list_variables s; sc_more_blocks := sc_more_blocks s; sc_components := sc_components s; sc_events := sc_events s;
     sc_fab := option_map rebutton (sc_fab s); sc_fullscreen := sc_fullscreen s; sc_toolbar := sc_toolbar s; sc_drawer := sc_drawer s;
     sc_fab_enabled := sc_fab_enabled s; sc_orientation := sc_orientation s; sc_theme := sc_theme s; sc_keyboard := sc_keyboard s |}.
Definition recustom (c : custom_view) : custom_view := {| cv_res_name := cv_res_name c; cv_layout := relaid (cv_layout c) |}.
Lemma rescreen_settles s : rescreen (rescreen (rescreen s)) = rescreen (rescreen s).
Proof. unfold rescreen. cbn. rewrite relaid_settles. destruct (sc_fab s) as [v|]; cbn; [rewrite rebutton_settles|]; reflexivity. Qed.
Lemma recustom_settles c : recustom (recustom (recustom c)) = recustom (recustom c).
Proof. unfold recustom. cbn. now rewrite relaid_settles. Qed.
Lemma screen_exact s s' : same_screen s s' -> sc_layout s' = relaid (sc_layout s) -> sc_fab s' = option_map rebutton (sc_fab s) -> s' = rescreen s.
Proof.
  intros ((E1 & E2 & E3 & E4 & E5 & E6 & E7 & E8 & E9) & (L1 & L2 & L3 & L4 & L5) & _) L F. destruct s'. cbn in *. subst. reflexivity.
Qed.
Lemma map_by_place {A B} (f : A -> B) l : forall m, length m = length l -> (forall a x b, l = a ++ x :: b -> nth_error m (length a) = Some (f x)) -> m = map f l.
Proof.
  induction l as [|x l IH]; intros [|y m] L H; try discriminate L; [reflexivity|]. cbn. pose proof (H [] x l eq_refl) as E. cbn in E. injection E as ->. f_equal.
  apply IH; [cbn in L; congruence|]. intros a z b ->. exact (H (x :: a) z b eq_refl).
Qed.
Lemma Forall2_place {A B} (P : A -> B -> Prop) l m : Forall2 P l m -> forall a x b y, l = a ++ x :: b -> nth_error m (length a) = Some y -> P x y.
Proof.
  induction 1 as [|x y l m H _ IH]; intros a z b w E N; [destruct a; discriminate|]. destruct a as [|u a]; cbn in *.
  - injection E as <- _. injection N as <-. exact H.
  - injection E as _ E. eapply IH; eauto.
Qed.
(** a conversion gives these screens and custom views *)
Lemma converted_screens rnd p q p' : ready_project p -> project_into p = Ok q -> project_try_from rnd q = Ok p' ->
  sp_screens p' = map rescreen (sp_screens p) /\ sp_custom_views p' = map recustom (sp_custom_views p).
Proof.
  intros RP H K. destruct (ready_screens_back p q RP H) as (ss & lays & cvs & S & C & SS & SC).
  apply try_from_inv in K as (lays0 & im & so & fo & S0 & C0 & _). rewrite S in S0. injection S0 as <- <-. rewrite C in C0. injection C0 as <-.
  apply take_screens_iff in S as (LS & -> & S). apply take_custom_views_iff in C as (LC & C).
  destruct RP as (RS & RC & NL & NJ). apply into_inv in H as (lays & imf & sof & fof & PS & _ & _ & _ & VL & _ & _ & FA & FC & _).
  apply put_screens_get in PS as (_ & O & G1 & G2).
  assert (N1 : NoDup (map sc_layout_name (sp_screens p))) by (apply NoDup_app_inv in NL; tauto).
  assert (N2 : NoDup (map cv_res_name (sp_custom_views p))) by (apply NoDup_app_inv in NL; tauto).
  assert (D : forall k, In k (map sc_layout_name (sp_screens p)) -> ~ In k (map cv_res_name (sp_custom_views p))) by (apply NoDup_app_inv in NL; tauto).
  specialize (G2 N1 (fun _ _ => eq_refl)). rewrite FA, VL in *. rewrite FC in *.
  destruct (put_custom_views_get (sp_custom_views p) lays) as [C1 C2]. specialize (C2 N2). split.
  - apply map_by_place; [now rewrite map_length in LS|]. intros a s b E.
    assert (I : In s (sp_screens p)) by (rewrite E, in_app_iff; cbn; auto). rewrite Forall_forall in RS. destruct (RS s I) as (_ & _ & _ & _ & LO).
    destruct (S (map activity_of a) (activity_of s) (map activity_of b)) as (s' & N & R); [now rewrite E, map_app|]. rewrite map_length in N.
    pose proof (Forall2_place _ _ _ SS _ _ _ _ E N) as X. rewrite N. f_equal. apply screen_exact; [exact X| |].
    + unfold reads_screen in R. apply from_parsed_fields in R as (_ & _ & R & _). cbn [fi_filename activity_of] in R. rewrite sget_rm_all in R.
      rewrite map_map in R. cbn [fi_filename activity_of] in R. rewrite (proj2 (mem_not _ _)) in R.
      2:{ rewrite E, map_app in N1. cbn [map] in N1. apply NoDup_remove_2 in N1. rewrite in_app_iff in N1. tauto. }
      rewrite C1 in R by (apply D, in_map; exact I). rewrite (proj1 (G2 s I)) in R. cbn [or_empty] in R. rewrite (relaid_reads _ LO) in R. congruence.
    + unfold reads_screen in R. apply from_parsed_fields in R as (_ & _ & _ & R & _). cbn [fi_filename activity_of] in R. rewrite sget_rm_all in R.
      rewrite map_map in R. cbn [fi_filename activity_of] in R. rewrite (proj2 (mem_not _ _)) in R.
      2:{ rewrite E, map_app in N1. cbn [map] in N1. apply NoDup_remove_2 in N1. rewrite in_app_iff in N1. tauto. }
      rewrite (proj2 (G2 s I)) in R. rewrite R. unfold fab_raw. now destruct (sc_fab s).
  - apply map_by_place; [now rewrite map_length in LC|]. intros a c b E.
    assert (I : In c (sp_custom_views p)) by (rewrite E, in_app_iff; cbn; auto). rewrite Forall_forall in RC. pose proof (RC c I) as LO. cbn beta in LO.
    destruct (C (map custom_view_item a) (custom_view_item c) (map custom_view_item b)) as (c' & N & R1 & R2 & lay & R3 & R4); [now rewrite E, map_app|]. rewrite map_length in N.
    rewrite N. f_equal. cbn [fi_filename custom_view_item] in R1, R2, R3. rewrite sget_rm_all in R3. destruct (mem _ _) in R3; [discriminate R3|].
    rewrite (C2 c I) in R3. injection R3 as <-. rewrite (relaid_reads _ LO) in R4. destruct c'. cbn in R1, R4. unfold recustom. congruence.
Qed.
Lemma ready_rescreened s : ready_screen s -> ready_screen (rescreen s).
Proof. intros (J & NM & NC & G & L). split; [exact J|]. split; [exact NM|]. split; [exact NC|]. split; [exact G|]. apply relaid_ok. exact L. Qed.
Lemma ready_again p p' : ready_project p -> sp_screens p' = map rescreen (sp_screens p) -> sp_custom_views p' = map recustom (sp_custom_views p) -> ready_project p'.
Proof.
  intros (RS & RC & NL & NJ) E1 E2. unfold ready_project. rewrite E1, E2, !map_map. split; [|split; [|split; [exact NL|exact NJ]]].
  - rewrite Forall_map. eapply Forall_impl; [|exact RS]. apply ready_rescreened.
  - rewrite Forall_map. eapply Forall_impl; [|exact RC]. intros c L. apply relaid_ok. exact L.
Qed.
(** what a project without resources is converted to *)
Definition reproject (p : sw_project) : sw_project :=
  {| sp_custom_icon := if sp_automatic p then sp_custom_icon p else None; sp_metadata := sp_metadata p; sp_colors := sp_colors p;
     sp_screens := map rescreen (sp_screens p); sp_custom_views := map recustom (sp_custom_views p); sp_libraries := sp_libraries p;
     sp_resources := sp_resources p; sp_automatic := negb (sp_automatic p) |}.
Lemma ready_reproject p : ready_project p -> ready_project (reproject p).
Proof. intros RP. now apply (ready_again p). Qed.
Lemma bare_ready p : sp_resources p = resources_empty -> ready_resources (sp_resources p).
Proof. intros ->. intros t m [[= <- <-]|[[= <- <-]|[[= <- <-]|[]]]]; split; constructor. Qed.
Lemma bare_exact rnd p : ready_project p -> sp_resources p = resources_empty -> exists q, project_into p = Ok q /\ project_try_from rnd q = Ok (reproject p).
Proof.
  intros RP RE. destruct (C46_partial rnd p RP (bare_ready p RE)) as (q & H & A & B & _). exists q. split; [exact H|].
  assert (X : exists p', project_try_from rnd q = Ok p' /\ same_project p p' /\ sp_custom_icon p' = (if sp_automatic p then sp_custom_icon p else None) /\ sp_resources p' = resources_empty).
  { destruct (sp_automatic p); [destruct (B eq_refl RE) as (p' & K & S & I & R); eauto|]. destruct (A eq_refl) as (p' & K & S & I & F). exists p'. split; [exact K|]. split; [exact S|]. split; [exact I|].
    rewrite RE in F. unfold resources_of in F. cbn in F. destruct (sp_resources p') as [im so fo]. cbn in F. inversion F as [|? ? ? ? (_ & F1) F']; subst. inversion F' as [|? ? ? ? (_ & F2) F'']; subst.
    inversion F'' as [|? ? ? ? (_ & F3) _]; subst. cbn in F1, F2, F3. inversion F1; subst. inversion F2; subst. inversion F3; subst. reflexivity. }
  destruct X as (p' & K & (S1 & S2 & S3 & _) & I & R). destruct (converted_screens rnd p q p' RP H K) as (E1 & E2). pose proof (proj1 (C46_refuted rnd p q p' H K)) as AU.
  rewrite K. f_equal. destruct p'. cbn in *. subst. unfold reproject. now rewrite RE.
Qed.
Lemma bare_converted p p' : ready_project p -> sp_resources p = resources_empty -> (converted p p' <-> p' = reproject p).
Proof.
  intros RP RE. split.
  - intros (rnd & q & H & K). destruct (bare_exact rnd p RP RE) as (q' & H' & K'). rewrite H in H'. injection H' as <-. congruence.
  - intros ->. exists (fun _ _ => 0). destruct (bare_exact (fun _ _ => 0) p RP RE) as (q & H & K). eauto.
Qed.
Lemma reproject_settles p : reproject (reproject (reproject p)) = turned (reproject (reproject p)).
Proof.
  unfold reproject, turned. cbn. rewrite !map_map. f_equal.
  - now destruct (sp_automatic p).
  - apply map_ext. apply rescreen_settles.
  - apply map_ext. apply recustom_settles.
Qed.
Fixpoint reprojects (n : nat) (p : sw_project) : sw_project := match n with O => p | S k => reprojects k (reproject p) end.
Lemma bare_times n : forall p p', ready_project p -> sp_resources p = resources_empty -> (times converted n p p' <-> p' = reprojects n p).
Proof.
  induction n as [|n IH]; intros p p' RP RE; cbn [reprojects].
  - split; [intros T; now inversion T|intros ->; constructor].
  - split.
    + intros T. inversion T as [|? ? y ? C T']; subst. apply bare_converted in C; auto. subst. apply IH in T'; auto. now apply ready_reproject.
    + intros ->. econstructor; [apply bare_converted; auto|]. apply IH; auto. now apply ready_reproject.
Qed.
Lemma turned_turned p : turned (turned p) = p.
Proof. destruct p. unfold turned. cbn. now rewrite Bool.negb_involutive. Qed.
Lemma settled_reprojects n p : reproject p = turned p -> reproject (turned p) = p -> reprojects n p = if Nat.even n then p else turned p.
Proof.
  intros E1 E2. assert (X : (reprojects n p = if Nat.even n then p else turned p) /\ (reprojects n (turned p) = if Nat.even n then turned p else p)).
  { induction n as [|n (IH1 & IH2)]; [now split|]. cbn [reprojects]. rewrite E1, E2, IH1, IH2, Nat.even_succ, <- Nat.negb_even. now destruct (Nat.even n). }
  apply X.
Qed.
(** after two conversions *)
Lemma reprojects_two n p : reprojects n (reproject (reproject p)) = if Nat.even n then reproject (reproject p) else turned (reproject (reproject p)).
Proof.
  apply settled_reprojects; [apply reproject_settles|]. rewrite <- reproject_settles. rewrite (reproject_settles (reproject p)). rewrite reproject_settles, turned_turned. reflexivity.
Qed.

(** ** What is the same *)
Lemma same_view_twice n p t t' : same_view n (back (back n p t) p t').
Proof.
  assert (E : snd (flatten_node (back n p t) p t') = written (snd (flatten_node n p t)) t') by (apply flatten_attrs, flatten_node_parent).
  pose proof (back_attrs n p t) as A1. pose proof (back_attrs (back n p t) p t') as A2. pose proof (back_hidden n p t) as H1. pose proof (back_hidden (back n p t) p t') as H2.
  split; [|split].
  - unfold same_attrs in *. decompose [and] A1. decompose [and] A2. clear A1 A2. repeat split; congruence.
  - unfold same_hidden in *. decompose [and] H1. decompose [and] H2. clear H1 H2. repeat split; congruence.
  - rewrite <- (view_kept n p t). unfold back at 1. rewrite E. cbn [attrs_of vn_view]. rewrite from_view_written. reflexivity.
Qed.
Lemma same_tree_twice v : forall p t t', same_tree same_view v (retree (retree v p t) p t').
Proof.
  induction v as [n ch IH] using aview_induct. intros p t t'. cbn [retree]. constructor; [apply same_view_twice|]. rewrite map_map, back_id.
  induction IH as [|c r Hc _ IHr]; cbn [map]; constructor; auto.
Qed.
Lemma relaid_twice F : same_layout F (relaid (relaid F)).
Proof. unfold same_layout, relaid. induction F as [|v F IH]; cbn [map]; constructor; [apply same_tree_twice|exact IH]. Qed.
Lemma rebutton_twice v : same_fab (Some v) (Some (rebutton (rebutton v))).
Proof.
  split; [|reflexivity]. unfold rebutton at 1. cbn [view_from vnode]. unfold rebutton. cbn [view_from vnode]. rewrite button_again.
  pose proof (same_view_twice (vnode v) ROOT 0 0) as S. rewrite back_back in S. set (w := written _ 0) in *. clearbody w. destruct w. exact S.
Qed.
Lemma reproject_same p : ready_project p -> same_project p (reproject p).
Proof.
  intros (RS & RC & _). split; [reflexivity|]. split; [reflexivity|]. split; [reflexivity|]. cbn. split.
  - induction RS as [|s l R _ IH]; cbn; constructor; auto. split; [repeat split|]. split; [repeat split|]. split; [apply relaid_same; apply R|].
    cbn. destruct (sc_fab s) as [v|]; cbn [option_map]; [apply rebutton_same|exact Logic.I].
  - induction RC as [|c l R _ IH]; cbn; constructor; auto. split; [reflexivity|]. apply relaid_same. exact R.
Qed.
Lemma reproject_same2 p : same_project p (reproject (reproject p)).
Proof.
  split; [reflexivity|]. split; [reflexivity|]. split; [reflexivity|]. cbn. rewrite !map_map. split.
  - induction (sp_screens p) as [|s l IH]; cbn [map]; constructor; auto. split; [repeat split|]. split; [repeat split|]. split; [apply relaid_twice|].
    cbn. destruct (sc_fab s) as [v|]; cbn [option_map]; [apply rebutton_twice|exact Logic.I].
  - induction (sp_custom_views p) as [|c l IH]; cbn [map]; constructor; auto. split; [reflexivity|]. apply relaid_twice.
Qed.
Lemma reprojects_same n p : ready_project p -> same_project p (reprojects (S n) p).
Proof.
  intros RP. destruct n as [|n]; [now apply reproject_same|]. cbn [reprojects]. rewrite reprojects_two. destruct (Nat.even n); exact (reproject_same2 p).
Qed.
Lemma reprojects_flag n : forall p, sp_automatic (reprojects n p) = if Nat.even n then sp_automatic p else negb (sp_automatic p).
Proof.
  induction n as [|n IH]; intros p; [reflexivity|]. cbn [reprojects]. rewrite IH, Nat.even_succ, <- Nat.negb_even. cbn. destruct (Nat.even n); cbn; now destruct (sp_automatic p).
Qed.
Lemma reprojects_bare n : forall p, sp_resources p = resources_empty -> sp_resources (reprojects n p) = resources_empty.
Proof. induction n as [|n IH]; intros p E; [exact E|]. apply IH. exact E. Qed.
Lemma reprojects_icon n p : sp_custom_icon (reprojects (S (S n)) p) = None.
Proof. cbn [reprojects]. rewrite reprojects_two. destruct (Nat.even n); cbn; now destruct (sp_automatic p). Qed.

(** ** Through the files *)
Lemma typed_written a t : well_typed a -> finite_floats a -> t < 2 ^ 8 -> well_typed (written a t) /\ finite_floats (written a t).
Proof.
  intros T F B. split; [|exact F]. unfold well_typed in *. cbv zeta in *. destruct T as (T1 & T2 & T3 & T4 & T5 & _ & T6).
  split; [exact T1|]. split; [exact T2|]. split; [exact T3|]. split; [exact T4|]. split; [exact T5|]. split; [|exact T6].
  change (is_i8 (i8_of_u8 t)). unfold is_i8, i8_of_u8. change (2 ^ 8) with 256 in B. change (2 ^ 7)%Z with 128%Z. destruct (N.ltb_spec t 128); lia.
Qed.
Lemma seen_bound a : seen_type a <= av_type a.
Proof. unfold seen_type. destruct (av_type a =? 12) eqn:E; [apply N.eqb_eq in E; lia|]. destruct (_ && _); lia. Qed.
Definition line_fits (x : android_view) : Prop := well_typed x /\ finite_floats x.
Lemma tree_fits v : forall p t t', t' < 2 ^ 8 -> Forall line_fits (fst (flatten_view v p t) :: snd (flatten_view v p t)) ->
  Forall line_fits (fst (flatten_view (retree v p t) p t') :: snd (flatten_view (retree v p t) p t')).
Proof.
  induction v as [n ch IH] using aview_induct. intros p t t' B. cbn [retree]. rewrite !flatten_view_eq. cbn [fst snd].
  assert (E : snd (flatten_node (back n p t) p t') = written (snd (flatten_node n p t)) t') by (apply flatten_attrs, flatten_node_parent).
  rewrite !Forall_cons_iff, E, back_id, reported_back. intros ((W & F) & L). split; [now apply typed_written|].
  assert (B' : seen_type (snd (flatten_node n p t)) < 2 ^ 8).
  { pose proof (seen_bound (snd (flatten_node n p t))). assert (is_u8 (av_type (snd (flatten_node n p t)))) as U by apply W. unfold is_u8 in U. lia. }
  set (k := seen_type _) in *. clearbody k. set (i := vn_id n) in *. set (j := reported n) in *. clear -IH L B'. rewrite Forall_app in *. destruct L as (L1 & L2).
  rewrite Forall_map in L1. rewrite Forall_flat_map in L2. rewrite map_map, Forall_map, Forall_flat_map, Forall_map. rewrite !Forall_forall in *. split; intros c I.
  - specialize (IH c I i j k B' (Forall_cons _ (L1 c I) (L2 c I))). apply Forall_inv in IH. exact IH.
  - specialize (IH c I i j k B' (Forall_cons _ (L1 c I) (L2 c I))). apply Forall_inv_tail in IH. exact IH.
Qed.
Lemma views_fit_again F : views_fit F -> views_fit (relaid F).
Proof.
  unfold views_fit. intros H. assert (L : Forall (fun v => Forall line_fits (fst (flatten_view v ROOT 0) :: snd (flatten_view v ROOT 0))) F).
  { rewrite Forall_forall. intros v I. rewrite Forall_forall. intros x X. apply H. unfold flatten_views. rewrite in_app_iff, in_map_iff, in_flat_map.
    destruct X as [<-|X]; [left|right]; exists (flatten_view v ROOT 0); split; auto; apply in_map_iff; eauto. }
  intros x I. unfold flatten_views in I. rewrite in_app_iff, in_map_iff, in_flat_map in I. unfold relaid in I.
  assert (X : exists v, In v F /\ In x (fst (flatten_view (retree v ROOT 0) ROOT 0) :: snd (flatten_view (retree v ROOT 0) ROOT 0))).
  { destruct I as [(y & E & I)|(y & I & E)]; rewrite map_map, in_map_iff in I; destruct I as (v & <- & I); exists v; split; auto; cbn; auto. }
  destruct X as (v & I' & X). rewrite Forall_forall in L. pose proof (tree_fits v ROOT 0 0 ltac:(reflexivity) (L v I')) as T. rewrite Forall_forall in T. exact (T x X).
Qed.
Lemma button_fits_again v : button_fits v -> button_fits (rebutton v).
Proof.
  unfold button_fits. intros H x. destruct v as [n ch]. unfold rebutton, view_from. cbn [vnode]. rewrite fab_of_ok. intros [= <-].
  specialize (H _ (fab_of_ok n ch)). change (well_typed (button_raw (attrs_of (button_raw n))) /\ finite_floats (button_raw (attrs_of (button_raw n)))).
  rewrite button_again. set (a := snd (flatten_node n ROOT 0)) in *. clearbody a. destruct H as (T & F). split; [|exact F]. exact T.
Qed.
Lemma screen_fits_again s : screen_fits s -> screen_fits (rescreen s).
Proof.
  intros (A & B & C & D). split; [exact A|]. split; [apply views_fit_again; exact B|]. split; [|exact D].
  cbn. intros v. destruct (sc_fab s) as [w|]; [|discriminate]. intros [= <-]. apply button_fits_again, C. reflexivity.
Qed.
Lemma fits_again p dt : project_fits p dt -> project_fits (reproject p) dt.
Proof.
  unfold project_fits. cbv zeta. cbn [reproject sp_metadata sp_colors sp_screens sp_custom_views]. intros (A & B & C & D & E & F & G & H).
  repeat (split; [assumption|]). rewrite !Forall_map. split; [eapply Forall_impl; [|exact G]; apply screen_fits_again|].
  eapply Forall_impl; [|exact H]. intros c (N & V). split; [exact N|]. now apply views_fit_again.
Qed.
Lemma relaid_nil F : relaid F = [] <-> F = [].
Proof. destruct F; cbn; split; auto; discriminate. Qed.
Lemma layouts_again p : all_layouts (reproject p) = map relaid (all_layouts p).
Proof. unfold all_layouts. cbn. rewrite map_app, !map_map. reflexivity. Qed.
Lemma apart_again p dt : told_apart p dt -> told_apart (reproject p) dt.
Proof.
  intros (D & S & L & F & C). split; [exact D|]. split; [|split; [|split]].
  - cbn. destruct S as [S| ->]; [left; now destruct (sp_screens p)|now right].
  - intros a l m b. rewrite layouts_again. intros E. apply map_eq_app in E as (a' & r & E & _ & E2). apply map_eq_cons in E2 as (l' & r' & -> & <- & E2).
    apply map_eq_cons in E2 as (m' & b' & -> & <- & _). apply relaid_nil. eapply L. exact E.
  - rewrite layouts_again. destruct F as [F|(a & x & l & E)].
    + left. intros s. cbn. rewrite in_map_iff. intros (s' & <- & I). cbn. now rewrite (F s' I).
    + right. exists (map relaid a), (retree x ROOT 0), (relaid l). rewrite E, map_app. reflexivity.
  - intros a s b t c E. cbn in E. apply map_eq_app in E as (a' & r & E & _ & E2). apply map_eq_cons in E2 as (s' & r' & -> & <- & E2).
    apply map_eq_app in E2 as (b' & r2 & -> & _ & E2). apply map_eq_cons in E2 as (t' & c' & -> & <- & _). intros NC. exact (C a' s' b' t' c' E NC).
Qed.
Lemma icon_again ex p : icon_filed ex (reproject p).
Proof. unfold icon_filed. cbn. destruct (sp_automatic p); discriminate. Qed.
Lemma bare_refiled mv ex p dt p' : ready_project p -> sp_resources p = resources_empty -> project_fits p dt -> told_apart p dt -> icon_filed ex p ->
  (refiled mv ex p p' <-> p' = reproject p).
Proof.
  intros RP RE PF TA IC. pose proof (bare_exact (fun _ _ => 0) p RP RE) as (q & H & _).
  pose proof (fits_typed p q dt RP PF H) as T. pose proof H as H0. apply into_inv in H0 as (lays & imf & sof & fof & _ & R1 & R2 & R3 & _ & _ & _ & _ & _ & RF).
  assert (X : forall r, into_raw q r -> exists v, parse_from mv ex r = Ok v /\ alike q v).
  { intros r W. apply (reads_back mv ex p q dt r RP PF TA H); [|exact W]. rewrite RF. rewrite RE in *. unfold icon_filed in IC. destruct (sp_automatic p); [|discriminate].
    cbn in R1, R2, R3. injection R1 as _ <-. injection R2 as _ <-. injection R3 as _ <-.
    intros f [= <-]. split; [split; [exact (IC eq_refl)|]; repeat split; cbn; discriminate|repeat split; constructor]. }
  split.
  - intros (rnd & r & (q' & H' & W) & v & P & K). rewrite H in H'. injection H' as <-. destruct (X r W) as (v' & P' & AL). rewrite P in P'. injection P' as <-.
    rewrite (try_from_alike rnd q v AL) in K. destruct (bare_exact rnd p RP RE) as (q' & H' & K'). rewrite H in H'. injection H' as <-. congruence.
  - intros ->. destruct (C50_written q dt T) as (r & W). exists (fun _ _ => 0), r. split; [exists q; auto|]. destruct (X r W) as (v & P & AL). exists v. split; [exact P|].
    rewrite (try_from_alike _ q v AL). destruct (bare_exact (fun _ _ => 0) p RP RE) as (q' & H' & K'). rewrite H in H'. injection H' as <-. exact K'.
Qed.
Lemma bare_refiled_times mv ex n : forall p dt p', ready_project p -> sp_resources p = resources_empty -> project_fits p dt -> told_apart p dt -> icon_filed ex p ->
  (times (refiled mv ex) n p p' <-> p' = reprojects n p).
Proof.
  induction n as [|n IH]; intros p dt p' RP RE PF TA IC; cbn [reprojects].
  - split; [intros T; now inversion T|intros ->; constructor].
  - pose proof (ready_reproject p RP) as RP'. pose proof (fits_again p dt PF) as PF'. pose proof (apart_again p dt TA) as TA'. split.
    + intros T. inversion T as [|? ? y ? C T']; subst. apply (bare_refiled mv ex p dt) in C; auto. subst. apply (IH (reproject p) dt) in T'; auto. apply icon_again.
    + intros ->. econstructor; [apply (bare_refiled mv ex p dt); auto|]. apply (IH (reproject p) dt); auto. apply icon_again.
Qed.

(** ** With resources *)
Lemma numbered_ready r r' : ready_resources r ->
  Forall2 (fun a b => fst b = fst a /\ Forall2 (numbered_resource (fst a)) (snd a) (snd b)) (resources_of r) (resources_of r') -> ready_resources r'.
Proof.
  intros R F t m I. assert (X : exists m0, In (t, m0) (resources_of r) /\ Forall2 (numbered_resource t) m0 m).
  { revert I. induction F as [|[t1 m1] [t2 m2] l l' (E & H) F IH]; [intros []|]. cbn [fst snd] in *. subst t2. intros [[= <- <-]|I].
    - exists m1. split; [now left|exact H].
    - destruct (IH I) as (m0 & I0 & H0). exists m0. split; [now right|exact H0]. }
  clear F I. destruct X as (m0 & I & F). destruct (R t m0 I) as [N _]. split.
  - replace (map fst m) with (map fst m0); [exact N|]. clear -F. induction F as [|a b l l' (E & _) _ IH]; cbn; congruence.
  - clear -F. induction F as [|a b l l' (_ & i & n & _ & E) _ IH]; constructor; auto. exists n. rewrite E. reflexivity.
Qed.
Lemma numbered_empty r r' :
  Forall2 (fun a b => fst b = fst a /\ Forall2 (numbered_resource (fst a)) (snd a) (snd b)) (resources_of r) (resources_of r') -> r' = resources_empty -> r = resources_empty.
Proof.
  intros F ->. unfold resources_of in F. destruct r as [im so fo]. cbn in F. inversion F as [|? ? ? ? (_ & F1) F']; subst. inversion F' as [|? ? ? ? (_ & F2) F'']; subst.
  inversion F'' as [|? ? ? ? (_ & F3) _]; subst. cbn in F1, F2, F3. inversion F1; subst. inversion F2; subst. inversion F3; subst. reflexivity.
Qed.
(** what a project with resources is converted to *)
Lemma numbered_converted rnd p q p1 : ready_project p -> ready_resources (sp_resources p) -> sp_automatic p = false -> project_into p = Ok q -> project_try_from rnd q = Ok p1 ->
  same_project p p1 /\ sp_custom_icon p1 = None /\ sp_automatic p1 = true /\ ready_project p1 /\ ready_resources (sp_resources p1) /\
  (sp_resources p1 = resources_empty -> sp_resources p = resources_empty) /\
  sp_screens p1 = map rescreen (sp_screens p) /\ sp_custom_views p1 = map recustom (sp_custom_views p).
Proof.
  intros RP RR A H K. destruct (C46_partial rnd p RP RR) as (q' & H' & B & _). rewrite H in H'. injection H' as <-. destruct (B A) as (p' & K' & S & I & F).
  rewrite K in K'. injection K' as <-. destruct (converted_screens rnd p q p1 RP H K) as (E1 & E2). pose proof (proj1 (C46_refuted rnd p q p1 H K)) as AU. rewrite A in AU.
  split; [exact S|]. split; [exact I|]. split; [exact AU|]. split; [now apply (ready_again p)|]. split; [now apply (numbered_ready (sp_resources p))|].
  split; [now apply numbered_empty|auto].
Qed.
Lemma numbered_stuck rnd rnd' p q p1 : ready_project p -> ready_resources (sp_resources p) -> sp_automatic p = false -> sp_resources p <> resources_empty ->
  project_into p = Ok q -> project_try_from rnd q = Ok p1 -> exists q1 id n t, project_into p1 = Ok q1 /\ project_try_from rnd' q1 = Err (XMissingResourceFile id n t).
Proof.
  intros RP RR A NE H K. destruct (numbered_converted rnd p q p1 RP RR A H K) as (_ & _ & A1 & RP1 & RR1 & NE1 & _).
  destruct (C46_partial rnd' p1 RP1 RR1) as (q1 & H1 & _ & _ & B). destruct (B A1) as (id & n & t & E); [auto|]. eauto 10.
Qed.
Lemma fits_by p p1 dt : project_fits p dt -> same_project p p1 -> sp_screens p1 = map rescreen (sp_screens p) -> sp_custom_views p1 = map recustom (sp_custom_views p) -> project_fits p1 dt.
Proof.
  intros PF (S1 & S2 & _) E1 E2. apply fits_again in PF. unfold project_fits in *. cbv zeta in *. rewrite S1, S2, E1, E2. exact PF.
Qed.
Lemma apart_by p p1 dt : told_apart p dt -> sp_screens p1 = map rescreen (sp_screens p) -> sp_custom_views p1 = map recustom (sp_custom_views p) -> told_apart p1 dt.
Proof.
  intros TA E1 E2. apply apart_again in TA. unfold told_apart, all_layouts in *. rewrite E1, E2. exact TA.
Qed.
Lemma numbered_filed mv ex rnd p dt r p1 : ready_project p -> ready_resources (sp_resources p) -> sp_automatic p = false -> project_fits p dt -> told_apart p dt ->
  project_into_raw p r -> loaded mv ex rnd r p1 -> exists q, project_into p = Ok q /\ project_try_from rnd q = Ok p1.
Proof.
  intros RP RR A PF TA (q & H & W) (v & P & K). exists q. split; [exact H|]. pose proof H as H0. apply into_inv in H0 as (? & ? & ? & ? & _ & _ & _ & _ & _ & _ & _ & _ & _ & RF). rewrite A in RF.
  destruct (reads_back mv ex p q dt r RP PF TA H) as (v' & P' & AL); [rewrite RF; discriminate|exact W|]. rewrite P in P'. injection P' as <-. now rewrite <- (try_from_alike rnd q v AL).
Qed.
Lemma numbered_files_stuck mv ex rnd rnd' p dt r p1 r1 : ready_project p -> ready_resources (sp_resources p) -> sp_automatic p = false -> sp_resources p <> resources_empty ->
  project_fits p dt -> told_apart p dt -> project_into_raw p r -> loaded mv ex rnd r p1 -> project_into_raw p1 r1 ->
  exists v id n ty, parse_from mv ex r1 = Ok v /\ project_try_from rnd' v = Err (XMissingResourceFile id n ty).
Proof.
  intros RP RR A NE PF TA W L W1. destruct (numbered_filed mv ex rnd p dt r p1 RP RR A PF TA W L) as (q & H & K).
  destruct (numbered_converted rnd p q p1 RP RR A H K) as (S & I & A1 & RP1 & RR1 & NE1 & E1 & E2). pose proof (fits_by p p1 dt PF S E1 E2) as PF1. pose proof (apart_by p p1 dt TA E1 E2) as TA1.
  destruct (C86_automatic mv ex rnd' p1 dt RP1 RR1 A1 PF1) as (_ & O). destruct (O r1 W1) as (_ & _ & D).
  destruct TA1 as (DK & _ & LO & _). pose proof PF1 as (_ & _ & _ & TB & _ & TD & _). destruct (D (md_time_created (sp_metadata p1))) as (_ & D2); [apply (C86_dates _ _ TB TD); exact DK|].
  destruct (D2 LO) as (_ & _ & D3). apply D3; [rewrite I; discriminate|]. rewrite I. intros i rs O'. inversion O' as [E| | |]. apply NE, NE1. congruence.
Qed.
