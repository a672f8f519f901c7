(** Values without NaN and values up to the sign of zeros, used in the statements of P_Equal.v. *)
From Verif Require Import Base Flt M_View A_Block A_View A_Screen A_Project SpecScreen SpecResave SpecSettle.

(** zero without its sign *)
Definition positive (x : flt) : flt := match x with FZero _ => FZero false | _ => x end.
Definition number (x : flt) : Prop := x <> FNan.
(** ** Raw views *)
Definition positive_view (v : android_view) : android_view :=
  {| av_ad_size := av_ad_size v; av_ad_unit_id := av_ad_unit_id v; av_alpha := positive (av_alpha v); av_checked := av_checked v;
     av_choice_mode := av_choice_mode v; av_clickable := av_clickable v; av_custom_view := av_custom_view v; av_divider_height := av_divider_height v;
     av_enabled := av_enabled v; av_first_day_of_week := av_first_day_of_week v; av_id := av_id v; av_image := av_image v;
     av_indeterminate := av_indeterminate v; av_index := av_index v; av_layout := av_layout v; av_max := av_max v;
     av_parent := av_parent v; av_parent_type := av_parent_type v; av_pre_id := av_pre_id v; av_pre_index := av_pre_index v;
     av_pre_parent := av_pre_parent v; av_pre_parent_type := av_pre_parent_type v; av_progress := av_progress v; av_progress_style := av_progress_style v;
     av_scale_x := positive (av_scale_x v); av_scale_y := positive (av_scale_y v); av_spinner_mode := av_spinner_mode v; av_text := av_text v;
     av_translation_x := positive (av_translation_x v); av_translation_y := positive (av_translation_y v); av_type := av_type v |}.
Definition view_numbers (v : android_view) : Prop :=
  number (av_alpha v) /\ number (av_scale_x v) /\ number (av_scale_y v) /\ number (av_translation_x v) /\ number (av_translation_y v).
(** view files *)
Definition map_all {V} (P : V -> Prop) (m : smap V) : Prop := Forall (fun kv => P (snd kv)) m.
Definition view_file_numbers (v : view) : Prop := map_all (Forall view_numbers) (vw_layouts v) /\ map_all view_numbers (vw_fabs v).
Definition file_positive (v : view) : view :=
  {| vw_layouts := map (fun kv => (fst kv, map positive_view (snd kv))) (vw_layouts v); vw_fabs := map (fun kv => (fst kv, positive_view (snd kv))) (vw_fabs v) |}.
(** ** Blocks *)
Section Positive.
  Context (f : ablock -> ablock).
  Definition value_positive {T} (g : T -> T) (v : arg_value ablock T) : arg_value ablock T :=
    match v with AValue t => AValue (g t) | ABlock b => ABlock (f b) | APlaceholder i => APlaceholder i | AEmpty => AEmpty end.
  Definition item_positive (i : spec_item ablock) : spec_item ablock :=
    match i with
    | SText t => SText t
    | SParam (ArgString n v) => SParam (ArgString n (value_positive (fun t => t) v))
    | SParam (ArgNumber n v) => SParam (ArgNumber n (value_positive positive v))
    | SParam (ArgBoolean n v) => SParam (ArgBoolean n (value_positive (fun t => t) v))
    | SParam (ArgMenu n v) => SParam (ArgMenu n (value_positive (fun t => t) v))
    end.
End Positive.
Fixpoint positive_block (b : ablock) : ablock :=
  match b with
  | MkBlock s1 s2 col op items ty =>
    MkBlock (option_map (map positive_block) s1) (option_map (map positive_block) s2) col op (map (item_positive positive_block) items) ty
  end.
Definition item_number (i : spec_item ablock) : Prop := match i with SParam (ArgNumber _ (AValue x)) => number x | _ => True end.
Definition block_numbers : ablock -> Prop := everywhere (fun b => Forall item_number (ab_content b)).
(** the items of a moreblock's spec, with the blocks in them *)
Definition spec_numbers (l : list (spec_item ablock)) : Prop := Forall item_number l /\ SpecBlock.items_all block_numbers l.
(** ** Views *)
Fixpoint positive_aview (v : aview) : aview :=
  match v with
  | VNode n ch => VNode {| vn_id := vn_id n; vn_background_color := vn_background_color n; vn_height := vn_height n; vn_width := vn_width n;
      vn_padding := vn_padding n; vn_margin := vn_margin n; vn_weight := vn_weight n; vn_weight_sum := vn_weight_sum n;
      vn_layout_gravity := vn_layout_gravity n; vn_view := vn_view n; vn_raw := positive_view (vn_raw n) |} (map positive_aview ch)
  end.
Fixpoint aview_numbers (v : aview) : Prop :=
  match v with VNode n ch => view_numbers (vn_raw n) /\ (fix all l := match l with [] => True | x :: r => aview_numbers x /\ all r end) ch end.
(** ** Screens and projects *)
Definition positive_screen (s : screen) : screen :=
  {| sc_layout_name := sc_layout_name s; sc_java_name := sc_java_name s; sc_layout := map positive_aview (sc_layout s); sc_variables := sc_variables s;
     sc_list_variables := sc_list_variables s;
     sc_more_blocks := map (fun kv => (fst kv, {| am_name := am_name (snd kv); am_spec := map (item_positive positive_block) (am_spec (snd kv));
       am_code := map positive_block (am_code (snd kv)) |})) (sc_more_blocks s);
     sc_components := sc_components s;
     sc_events := map (fun e => {| ae_name := ae_name e; ae_type := ae_type e; ae_code := map positive_block (ae_code e) |}) (sc_events s);
     sc_fab := option_map positive_aview (sc_fab s); sc_fullscreen := sc_fullscreen s; sc_toolbar := sc_toolbar s; sc_drawer := sc_drawer s;
     sc_fab_enabled := sc_fab_enabled s; sc_orientation := sc_orientation s; sc_theme := sc_theme s; sc_keyboard := sc_keyboard s |}.
Definition screen_numbers (s : screen) : Prop :=
  Forall aview_numbers (sc_layout s) /\
  Forall (fun kv => spec_numbers (am_spec (snd kv)) /\ Forall block_numbers (am_code (snd kv))) (sc_more_blocks s) /\
  Forall (fun e => Forall block_numbers (ae_code e)) (sc_events s) /\ (forall v, sc_fab s = Some v -> aview_numbers v).
Definition positive_project (p : sw_project) : sw_project :=
  {| sp_custom_icon := sp_custom_icon p; sp_metadata := sp_metadata p; sp_colors := sp_colors p; sp_screens := map positive_screen (sp_screens p);
     sp_custom_views := map (fun c => {| cv_res_name := cv_res_name c; cv_layout := map positive_aview (cv_layout c) |}) (sp_custom_views p);
     sp_libraries := sp_libraries p; sp_resources := sp_resources p; sp_automatic := sp_automatic p |}.
Definition project_numbers (p : sw_project) : Prop :=
  Forall screen_numbers (sp_screens p) /\ Forall (fun c => Forall aview_numbers (cv_layout c)) (sp_custom_views p).
(** the numbers in the code of a screen *)
Definition code_numbers (s : screen) : Prop := Forall (Forall block_numbers) (screen_codes s).
