(** Properties C13 (view lines) and C20 (view data file). *)
From Verif Require Import Base Str Spec Dec Flt Json M_Color JsonF32 M_View ViewProofs ViewFileProofs.

(** The values the Rust types can hold, finite floats, sizes other than [Fixed(-1)]/[Fixed(-2)]. *)
Definition is_u32 (n : N) : Prop := n < 2 ^ 32.
Definition is_u8 (n : N) : Prop := n < 2 ^ 8.
Definition is_i8 (z : Z) : Prop := (-2 ^ 7 <= z < 2 ^ 7)%Z.
Definition is_i16 (z : Z) : Prop := (-2 ^ 15 <= z < 2 ^ 15)%Z.
Definition is_i32 (z : Z) : Prop := (-2 ^ 31 <= z < 2 ^ 31)%Z.
Definition is_size (s : size) : Prop := forall n, s = SFixed n -> is_i32 n /\ n <> (-1)%Z /\ n <> (-2)%Z.
Definition is_color (c : color) : Prop := cval c < 2 ^ 32.
Definition well_typed (x : android_view) : Prop :=
  is_u32 (av_divider_height x) /\ is_u8 (av_first_day_of_week x) /\ is_i16 (ic_rotate (av_image x)) /\ is_u32 (av_index x) /\
  is_u32 (av_max x) /\ is_i8 (av_parent_type x) /\ is_i32 (av_pre_index x) /\ is_i8 (av_pre_parent_type x) /\ is_u32 (av_progress x) /\
  is_u8 (av_type x) /\
  (let l := av_layout x in
   is_color (lc_background_color l) /\ is_u8 (lc_gravity l) /\ is_size (lc_height l) /\ is_u8 (lc_layout_gravity l) /\
   is_u32 (lc_margin_bottom l) /\ is_u32 (lc_margin_left l) /\ is_u32 (lc_margin_right l) /\ is_u32 (lc_margin_top l) /\
   is_u32 (lc_padding_bottom l) /\ is_u32 (lc_padding_left l) /\ is_u32 (lc_padding_right l) /\ is_u32 (lc_padding_top l) /\
   is_u32 (lc_weight l) /\ is_u32 (lc_weight_sum l) /\ is_size (lc_width l)) /\
  (let t := av_text x in is_color (tc_hint_color t) /\ is_u32 (tc_line t) /\ is_color (tc_text_color t) /\ is_u32 (tc_text_size t)).
(** the floats of a view: any finite f32 (zeros of both signs and subnormals included) *)
Definition finite_f32 (f : flt) : Prop := canonical F32 f = true /\ f <> FNan /\ f <> FInf false /\ f <> FInf true.
Definition finite_floats (x : android_view) : Prop :=
  Forall finite_f32 [av_alpha x; av_scale_x x; av_scale_y x; av_translation_x x; av_translation_y x].
Lemma finite_stable f : finite_f32 f -> f32_stable f.
Proof.
  intros (C & N & I1 & I2). apply d_f32_e_f32; auto. destruct f as [|[]| |]; auto; congruence.
Qed.
Lemma is_size_ok s : is_size s -> size_ok s.
Proof. intros H. destruct s as [| |n]; cbn; auto. destruct (H n eq_refl) as (A & B & C). unfold is_i32 in A. lia. Qed.
Lemma well_typed_good x : well_typed x -> finite_floats x -> view_good x.
Proof.
  unfold well_typed, finite_floats. cbv zeta. rewrite !Forall_cons_iff. intros T (A2 & B2 & C2 & D2 & E2 & _).
  pose proof (proj1 A2) as A1. pose proof (proj1 B2) as B1. pose proof (proj1 C2) as C1. pose proof (proj1 D2) as D1. pose proof (proj1 E2) as E1.
  apply finite_stable in A2, B2, C2, D2, E2.
  unfold is_u32, is_u8, is_i8, is_i16, is_i32, is_color in T. split; [|unfold view_f32; auto 10].
  decompose [and] T. unfold view_ok, layout_ok, text_ok, image_ok, u32_ok.
  change (2 ^ 32) with 4294967296 in *. change (2 ^ 8) with 256 in *.
  repeat match goal with |- _ /\ _ => split end; auto; try lia; now apply is_size_ok.
Qed.

Theorem C13_roundtrip x : well_typed x -> finite_floats x -> view_line_parse (view_line_reconstruct x) = Some x.
Proof. intros T F. apply view_line_rt. now apply well_typed_good. Qed.
Print Assumptions C13_roundtrip.
Definition ex_f32 (D : N) (E : Z) : flt := round_dec F32 true D E.
Definition ex_av : android_view :=
  let v := view_new_empty (lit "te""xt" ++ [10; 233]) 4 (lit "root") (-1) in
  {| av_ad_size := []; av_ad_unit_id := lit "u"; av_alpha := ex_f32 1 (-45); av_checked := true; av_choice_mode := CmMulti; av_clickable := true;
     av_custom_view := []; av_divider_height := 4294967295; av_enabled := true; av_first_day_of_week := 255; av_id := av_id v;
     av_image := {| ic_res_name := Some (lit "img"); ic_rotate := -32768; ic_scale_type := ScCenterInside |};
     av_indeterminate := true; av_index := 0; av_layout := av_layout v; av_max := 100; av_parent := Some (lit "p");
     av_parent_type := -1; av_pre_id := None; av_pre_index := -2147483648; av_pre_parent := Some []; av_pre_parent_type := 127;
     av_progress := 0; av_progress_style := []; av_scale_x := ex_f32 34028235 31; av_scale_y := ex_f32 123456789 (-9); av_spinner_mode := SmDialog;
     av_text := av_text v; av_translation_x := FZero true; av_translation_y := ex_f32 16777216 0; av_type := 255 |}.
Example C13_example :
  well_typed ex_av /\ finite_floats ex_av /\ view_line_parse (view_line_reconstruct ex_av) = Some ex_av /\
  view_line_reconstruct ex_av =
   lit "{""adSize"":"""",""adUnitId"":""u"",""alpha"":-1e-45,""checked"":1,""choiceMode"":2,""clickable"":1,""customView"":"""",""dividerHeight"":4294967295,""enabled"":1,""firstDayOfWeek"":255,""id"":""te\""xt\n" ++ [233] ++
   lit """,""image"":{""resName"":""img"",""rotate"":-32768,""scaleType"":""CENTER_INSIDE""},""indeterminate"":""true"",""index"":0,""layout"":{""backgroundColor"":16777215,""gravity"":0,""height"":-2,""layoutGravity"":0,""marginBottom"":0,""marginLeft"":0,""marginRight"":0,""marginTop"":0,""orientation"":1,""paddingBottom"":8,""paddingLeft"":8,""paddingRight"":8,""paddingTop"":8,""weight"":0,""weightSum"":0,""width"":-1},""max"":100,""parent"":""p"",""parentType"":-1,""preIndex"":-2147483648,""preParent"":"""",""preParentType"":127,""progress"":0,""progressStyle"":"""",""scaleX"":-3.4028235e38,""scaleY"":-0.12345679,""spinnerMode"":0,""text"":{""hint"":"""",""hintColor"":-10453621,""imeOption"":0,""inputType"":1,""line"":0,""singleLine"":0,""text"":"""",""textColor"":-16777216,""textFont"":""default_font"",""textSize"":12,""textType"":0},""translationX"":-0.0,""translationY"":-16777216.0,""type"":255}".
Proof.
  split; [|split; [|split; [vm_compute; reflexivity|vm_compute; reflexivity]]].
  - assert (H1 : is_size (lc_height (av_layout ex_av))) by (intros n E; discriminate E).
    assert (H2 : is_size (lc_width (av_layout ex_av))) by (intros n E; discriminate E).
    unfold well_typed. cbv zeta. unfold is_u32, is_u8, is_i8, is_i16, is_i32, is_color.
    repeat match goal with |- _ /\ _ => split end; auto; vm_compute; congruence.
  - unfold finite_floats, finite_f32. repeat constructor; vm_compute; congruence.
Qed.

(** C20. The layouts and fabs a [View] can hold: distinct keys, and names that fit in a header line. *)
Definition view_typed (v : view) : Prop :=
  Forall (fun kv => ~ In 10 (fst kv) /\ ~ In 46 (fst kv) /\ Forall (fun x => well_typed x /\ finite_floats x) (snd kv)) (vw_layouts v) /\
  Forall (fun kv => ~ In 10 (fst kv) /\ ~ In 46 (fst kv) /\ well_typed (snd kv) /\ finite_floats (snd kv)) (vw_fabs v) /\
  NoDup (map fst (vw_layouts v)) /\ NoDup (map fst (vw_fabs v)).
(** what the format can tell apart: at most the last layout has views, and fabs only after such a layout *)
Definition separable_view (v : view) : Prop :=
  (forall pre a b post, vw_layouts v = pre ++ a :: b :: post -> snd a = []) /\
  (vw_fabs v = [] \/ exists pre n x l, vw_layouts v = pre ++ [(n, x :: l)]).
Lemma view_typed_ok v : view_typed v -> view_file_ok v.
Proof.
  intros (A & B & C & D). split; [|split; [|auto]].
  - eapply Forall_impl; [|exact A]. intros kv (H1 & H2 & H3). split; [split; auto|]. eapply Forall_impl; [|exact H3].
    intros x [T F]. now apply well_typed_good.
  - eapply Forall_impl; [|exact B]. intros kv (H1 & H2 & H3 & H4). split; [split; auto|now apply well_typed_good].
Qed.
Lemma separable_view_ok v : separable_view v -> separable v.
Proof.
  intros [A B]. destruct v as [ls fabs]. cbn [vw_layouts vw_fabs] in *. destruct ls as [|[n l] pre _] using rev_ind.
  - destruct B as [->|(pre & n & x & l & E)]; [constructor|]. destruct pre; discriminate.
  - constructor.
    + apply Forall_forall. intros kv Hk. apply in_split in Hk as (p1 & p2 & ->).
      destruct p2 as [|b p2].
      * apply (A p1 kv (n, l) []). now rewrite <- app_assoc.
      * apply (A p1 kv b (p2 ++ [(n, l)])). rewrite <- app_assoc. reflexivity.
    + destruct B as [->|(pre2 & n2 & x & l2 & E)]; [now right|left]. apply app_inj_tail in E as [_ [= _ ->]]. discriminate.
Qed.
Lemma first_nonempty (ls : list (str * layout)) : Forall (fun kv => snd kv = []) ls \/
  exists pre n l post, ls = pre ++ (n, l) :: post /\ Forall (fun kv => snd kv = []) pre /\ l <> [].
Proof.
  induction ls as [|[n l] ls IH]; [now left|]. destruct l as [|x l].
  - destruct IH as [IH|(pre & n' & l' & post & -> & H & Hl)]; [left; now constructor|right].
    exists ((n, []) :: pre), n', l', post. split; [reflexivity|split; auto].
  - right. exists [], n, (x :: l), ls. repeat split; auto. discriminate.
Qed.
(** The full claim is [forall v, view_typed v -> view_parse (view_reconstruct v) = Ok v]; it holds exactly
    for separable views. *)
Theorem C20_roundtrip_partial v : view_typed v -> separable_view v -> view_parse (view_reconstruct v) = Ok v.
Proof. intros T S. apply view_rt; [now apply view_typed_ok|now apply separable_view_ok]. Qed.
Print Assumptions C20_roundtrip_partial.
Theorem C20_two_layouts_refuted v pre n l n2 l2 post : view_typed v -> vw_layouts v = pre ++ (n, l) :: (n2, l2) :: post ->
  l <> [] -> exists e, view_parse (view_reconstruct v) = Err e.
Proof.
  intros T E Hl. destruct (first_nonempty (pre ++ [(n, l)])) as [H|(p & m & k & q & E2 & H & Hk)].
  - exfalso. apply Forall_app in H as [_ H]. inversion H; subst. cbn in *. congruence.
  - destruct q as [|[m2 k2] q].
    + apply app_inj_tail in E2 as [-> [= -> ->]].
      destruct (view_rt_fail v p m k n2 l2 post (view_typed_ok _ T) E H Hk) as (e & -> & _). eauto.
    + assert (E3 : vw_layouts v = p ++ (m, k) :: (m2, k2) :: (q ++ (n2, l2) :: post)).
      { rewrite E. change ((n, l) :: (n2, l2) :: post) with ([(n, l)] ++ (n2, l2) :: post). rewrite app_assoc, E2, <- app_assoc. reflexivity. }
      destruct (view_rt_fail v p m k m2 k2 _ (view_typed_ok _ T) E3 H Hk) as (e & -> & _). eauto.
Qed.
Print Assumptions C20_two_layouts_refuted.
Theorem C20_fabs_lost_refuted v : view_typed v -> Forall (fun kv => snd kv = []) (vw_layouts v) -> vw_fabs v <> [] ->
  view_parse (view_reconstruct v) = Ok {| vw_layouts := vw_layouts v; vw_fabs := [] |}.
Proof. intros T. apply view_rt_lost. now apply view_typed_ok. Qed.
Print Assumptions C20_fabs_lost_refuted.
Theorem C20_exact v : view_typed v -> view_parse (view_reconstruct v) = Ok v <-> separable_view v.
Proof.
  intros T. split; [|now apply C20_roundtrip_partial]. intros R. split.
  - intros pre [n l] [n2 l2] post E. cbn. destruct l as [|x l]; [reflexivity|].
    destruct (C20_two_layouts_refuted v pre n (x :: l) n2 l2 post T E) as [e He]; [discriminate|]. congruence.
  - destruct (vw_fabs v) as [|f fs] eqn:EF; [now left|right].
    destruct (first_nonempty (vw_layouts v)) as [H|(p & m & k & q & E2 & H & Hk)].
    + rewrite C20_fabs_lost_refuted in R by (auto; congruence). injection R as R. rewrite <- R in EF. discriminate.
    + destruct k as [|x k]; [congruence|]. destruct q as [|[m2 k2] q]; [eauto|].
      destruct (C20_two_layouts_refuted v p m (x :: k) m2 k2 q T E2 Hk) as [e He]. congruence.
Qed.
Print Assumptions C20_exact.
Definition ex_av2 : android_view := view_new_empty (lit "button1") 3 (lit "root") (-1).
Lemma ex_av2_ok : well_typed ex_av2 /\ finite_floats ex_av2.
Proof.
  split.
  - assert (H1 : is_size (lc_height (av_layout ex_av2))) by (intros n E; discriminate E).
    assert (H2 : is_size (lc_width (av_layout ex_av2))) by (intros n E; discriminate E).
    unfold well_typed. cbv zeta. unfold is_u32, is_u8, is_i8, is_i16, is_i32, is_color.
    repeat match goal with |- _ /\ _ => split end; auto; vm_compute; congruence.
  - unfold finite_floats, finite_f32. repeat constructor; vm_compute; congruence.
Qed.
Definition ex_view : view := {| vw_layouts := [(lit "a", []); (lit "main", [ex_av2])]; vw_fabs := [(lit "main", ex_av2); (lit "x_y", ex_av2)] |}.
Example C20_example :
  view_typed ex_view /\ separable_view ex_view /\ view_parse (view_reconstruct ex_view) = Ok ex_view /\
  is_ok (view_parse (view_reconstruct {| vw_layouts := [(lit "main", [ex_av2]); (lit "b", [ex_av2])]; vw_fabs := [] |})) = false.
Proof.
  destruct ex_av2_ok as (W & F).
  split; [|split; [|split; vm_compute; reflexivity]].
  - assert (N : forall x, existsb (N.eqb x) (lit "a" ++ lit "main" ++ lit "x_y") = false -> ~ In x (lit "a") /\ ~ In x (lit "main") /\ ~ In x (lit "x_y")).
    { intros x H. rewrite !existsb_app, !orb_false_iff in H. destruct H as (A & B & C).
      assert (K : forall l, existsb (N.eqb x) l = false -> ~ In x l).
      { intros l Hl Hi. apply not_true_iff_false in Hl. apply Hl. apply existsb_exists. exists x. split; auto. apply N.eqb_refl. }
      auto. }
    destruct (N 10 eq_refl) as (? & ? & ?). destruct (N 46 eq_refl) as (? & ? & ?).
    assert (forall a b : str, str_eqb a b = false -> a <> b) by (intros a b E; now apply str_eqb_neq).
    unfold view_typed, ex_view. cbn [vw_layouts vw_fabs map fst snd]. split; [|split; [|split]].
    + constructor; [cbn [fst snd]; auto|constructor; [cbn [fst snd]; auto 10|constructor]].
    + constructor; [cbn [fst snd]; auto|constructor; [cbn [fst snd]; auto|constructor]].
    + constructor; [intros [E|[]]; revert E; apply H5; reflexivity|constructor; [intros []|constructor]].
    + constructor; [intros [E|[]]; revert E; apply H5; reflexivity|constructor; [intros []|constructor]].
  - split.
    + intros pre a b post E. destruct pre as [|p [|p2 pre]]; try discriminate E.
      * injection E as <- _ _. reflexivity.
      * destruct pre; discriminate.
    + right. exists [(lit "a", [])], (lit "main"), ex_av2, []. reflexivity.
Qed.
