(** Model of the derived [PartialEq] of the types of /repo/src/parser/view.rs and /repo/src/api. A derived [==] compares
    variant by variant and field by field; the strings, integers, booleans and enums among the fields are compared as [=]
    here. [LinkedHashMap]s are compared entry by entry in their order (ritelinked 0.3.2). The relation holds if [==] is
    true. Types without a floating point number in them ([Eq] types and those of /repo/src/parser/logic.rs) have [=]. *)
From Verif Require Import Base Flt M_View A_Block A_View A_Screen A_Project.

(** [f32] and [f64] (std): NaN is not equal to anything, the two zeros are equal *)
Definition flt_same (x y : flt) : Prop :=
  match x, y with
  | FNan, _ | _, FNan => False
  | FZero _, FZero _ => True
  | _, _ => x = y
  end.
Section All2.
  Context {A : Type} (f : A -> A -> Prop).
  (** [Vec<_>] and [Option<_>] *)
  Fixpoint list_same (l l' : list A) : Prop :=
    match l, l' with
    | [], [] => True
    | x :: r, y :: r' => f x y /\ list_same r r'
    | _, _ => False
    end.
  Definition option_same (o o' : option A) : Prop :=
    match o, o' with
    | None, None => True
    | Some x, Some y => f x y
    | _, _ => False
    end.
  Definition entry_same {K} (x y : K * A) : Prop := fst x = fst y /\ f (snd x) (snd y).
End All2.
(** parser/view.rs L255-310 *)
Definition view_same (v w : android_view) : Prop :=
  av_ad_size v = av_ad_size w /\ av_ad_unit_id v = av_ad_unit_id w /\ flt_same (av_alpha v) (av_alpha w) /\ av_checked v = av_checked w /\
  av_choice_mode v = av_choice_mode w /\ av_clickable v = av_clickable w /\ av_custom_view v = av_custom_view w /\ av_divider_height v = av_divider_height w /\
  av_enabled v = av_enabled w /\ av_first_day_of_week v = av_first_day_of_week w /\ av_id v = av_id w /\ av_image v = av_image w /\
  av_indeterminate v = av_indeterminate w /\ av_index v = av_index w /\ av_layout v = av_layout w /\ av_max v = av_max w /\
  av_parent v = av_parent w /\ av_parent_type v = av_parent_type w /\ av_pre_id v = av_pre_id w /\ av_pre_index v = av_pre_index w /\
  av_pre_parent v = av_pre_parent w /\ av_pre_parent_type v = av_pre_parent_type w /\ av_progress v = av_progress w /\ av_progress_style v = av_progress_style w /\
  flt_same (av_scale_x v) (av_scale_x w) /\ flt_same (av_scale_y v) (av_scale_y w) /\ av_spinner_mode v = av_spinner_mode w /\ av_text v = av_text w /\
  flt_same (av_translation_x v) (av_translation_x w) /\ flt_same (av_translation_y v) (av_translation_y w) /\ av_type v = av_type w.
(** parser/view.rs L167-168, L7-14 *)
Definition layout_same : layout -> layout -> Prop := list_same view_same.
Definition view_file_same (v w : view) : Prop :=
  list_same (entry_same layout_same) (vw_layouts v) (vw_layouts w) /\ list_same (entry_same view_same) (vw_fabs v) (vw_fabs w).

(** ** Blocks: api/block.rs L12-13, L344-363, L428-479, L595-598, L1037-1041, L1074-1109 *)
Section Block.
  Context (f : ablock -> ablock -> Prop).
  Definition value_same {T} (g : T -> T -> Prop) (v w : arg_value ablock T) : Prop :=
    match v, w with
    | AValue t, AValue u => g t u
    | ABlock b, ABlock c => f b c
    | APlaceholder i, APlaceholder j => i = j
    | AEmpty, AEmpty => True
    | _, _ => False
    end.
  Definition arg_same (a b : argument ablock) : Prop :=
    match a, b with
    | ArgString n v, ArgString m w => n = m /\ value_same eq v w
    | ArgNumber n v, ArgNumber m w => n = m /\ value_same flt_same v w
    | ArgBoolean n v, ArgBoolean m w => n = m /\ value_same eq v w
    | ArgMenu n v, ArgMenu m w => n = m /\ value_same eq v w
    | _, _ => False
    end.
  Definition item_same (i j : spec_item ablock) : Prop :=
    match i, j with
    | SText s, SText t => s = t
    | SParam a, SParam b => arg_same a b
    | _, _ => False
    end.
End Block.
Fixpoint block_same (b c : ablock) {struct b} : Prop :=
  match b, c with
  | MkBlock s1 s2 col op items ty, MkBlock s1' s2' col' op' items' ty' =>
    option_same (list_same block_same) s1 s1' /\ option_same (list_same block_same) s2 s2' /\ col = col' /\ op = op' /\
    list_same (item_same block_same) items items' /\ ty = ty'
  end.
Definition blocks_same : blocks -> blocks -> Prop := list_same block_same.

(** ** Views: api/view.rs L13-63 *)
Definition attrs_same (n m : vattrs) : Prop :=
  vn_id n = vn_id m /\ vn_background_color n = vn_background_color m /\ vn_height n = vn_height m /\ vn_width n = vn_width m /\
  vn_padding n = vn_padding m /\ vn_margin n = vn_margin m /\ vn_weight n = vn_weight m /\ vn_weight_sum n = vn_weight_sum m /\
  vn_layout_gravity n = vn_layout_gravity m /\ vn_view n = vn_view m /\ view_same (vn_raw n) (vn_raw m).
Fixpoint aview_same (v w : aview) {struct v} : Prop :=
  match v, w with VNode n ch, VNode m ch' => attrs_same n m /\ list_same aview_same ch ch' end.

(** ** Screens and projects: api/screen.rs L14-79, api/mod.rs L95-99, L237-248 *)
Definition more_block_same (m m' : amore_block) : Prop :=
  am_name m = am_name m' /\ list_same (item_same block_same) (am_spec m) (am_spec m') /\ blocks_same (am_code m) (am_code m').
Definition event_same (e e' : aevent) : Prop :=
  ae_name e = ae_name e' /\ ae_type e = ae_type e' /\ blocks_same (ae_code e) (ae_code e').
Definition screen_same (s t : screen) : Prop :=
  sc_layout_name s = sc_layout_name t /\ sc_java_name s = sc_java_name t /\ list_same aview_same (sc_layout s) (sc_layout t) /\
  sc_variables s = sc_variables t /\ sc_list_variables s = sc_list_variables t /\
  list_same (entry_same more_block_same) (sc_more_blocks s) (sc_more_blocks t) /\ sc_components s = sc_components t /\
  list_same event_same (sc_events s) (sc_events t) /\ option_same aview_same (sc_fab s) (sc_fab t) /\
  sc_fullscreen s = sc_fullscreen t /\ sc_toolbar s = sc_toolbar t /\ sc_drawer s = sc_drawer t /\ sc_fab_enabled s = sc_fab_enabled t /\
  sc_orientation s = sc_orientation t /\ sc_theme s = sc_theme t /\ sc_keyboard s = sc_keyboard t.
Definition custom_view_same (c d : custom_view) : Prop :=
  cv_res_name c = cv_res_name d /\ list_same aview_same (cv_layout c) (cv_layout d).
Definition project_same (p q : sw_project) : Prop :=
  sp_custom_icon p = sp_custom_icon q /\ sp_metadata p = sp_metadata q /\ sp_colors p = sp_colors q /\
  list_same screen_same (sp_screens p) (sp_screens q) /\ list_same custom_view_same (sp_custom_views p) (sp_custom_views q) /\
  sp_libraries p = sp_libraries q /\ sp_resources p = sp_resources q /\ sp_automatic p = sp_automatic q.
