(** Model of /repo/src/parser/view.rs and of the boolean adapters of /repo/src/parser/serde_util.rs. *)
From Verif Require Import Base Dec Flt Json Recs M_Color.

(** [Deserialize] of i16 and u16; unsigned encoder *)
Definition d_i16 := d_int (-32768) 32767.
Definition d_u16z := d_int 0 65535.
Definition d_u8z := d_int 0 255.
Definition e_u (n : N) : json := e_int (Z.of_N n).
(** serde_util.rs L60-62, L64-66 *)
Definition d_b01 (j : json) : option bool := let? n := d_u8 j in Some (negb (n =? 0)).
Definition e_b01 (b : bool) : json := e_u (if b then 1 else 0).
(** serde_util.rs L74-76, L78-84 *)
Definition d_bstr (j : json) : option bool :=
  let? s := d_str j in
  if str_eqb s (lit "true") then Some true else if str_eqb s (lit "false") then Some false else None.
Definition e_bstr (b : bool) : json := e_str (if b then lit "true" else lit "false").

(** view.rs L365-371 (serde_repr) *)
Inductive choice_mode := CmNone | CmSingle | CmMulti.
Definition choice_mode_num (x : choice_mode) : Z := match x with CmNone => 0 | CmSingle => 1 | CmMulti => 2 end.
Definition choice_mode_of (n : Z) : option choice_mode :=
  if (n =? 0)%Z then Some CmNone
  else if (n =? 1)%Z then Some CmSingle
  else if (n =? 2)%Z then Some CmMulti else None.
Definition d_choice (j : json) : option choice_mode := let? n := d_u8z j in choice_mode_of n.
Definition e_choice (x : choice_mode) : json := e_int (choice_mode_num x).

(** view.rs L373-378 *)
Inductive spinner_mode := SmDialog | SmDropdown.
Definition spinner_mode_num (x : spinner_mode) : Z := match x with SmDialog => 0 | SmDropdown => 1 end.
Definition spinner_mode_of (n : Z) : option spinner_mode :=
  if (n =? 0)%Z then Some SmDialog
  else if (n =? 1)%Z then Some SmDropdown else None.
Definition d_spinner (j : json) : option spinner_mode := let? n := d_u8z j in spinner_mode_of n.
Definition e_spinner (x : spinner_mode) : json := e_int (spinner_mode_num x).

(** view.rs L403-413 (SCREAMING_SNAKE_CASE names) *)
Inductive scale_type := ScCenter | ScFitXy | ScFitStart | ScFitCenter | ScFitEnd | ScCenterCrop | ScCenterInside.
Definition scale_name (x : scale_type) : str :=
  match x with
  | ScCenter => lit "CENTER" | ScFitXy => lit "FIT_XY" | ScFitStart => lit "FIT_START" | ScFitCenter => lit "FIT_CENTER"
  | ScFitEnd => lit "FIT_END" | ScCenterCrop => lit "CENTER_CROP" | ScCenterInside => lit "CENTER_INSIDE"
  end.
Definition scale_of (s : str) : option scale_type :=
  find (fun x => str_eqb s (scale_name x)) [ScCenter; ScFitXy; ScFitStart; ScFitCenter; ScFitEnd; ScCenterCrop; ScCenterInside].
Definition d_scale (j : json) : option scale_type := let? s := d_enum j in scale_of s.
Definition e_scale (x : scale_type) : json := e_str (scale_name x).

(** view.rs L471-476 *)
Inductive size := MatchParent | WrapContent | SFixed (n : Z).
(** view.rs L478-486 *)
Definition size_num (x : size) : Z := match x with MatchParent => -2 | WrapContent => -1 | SFixed n => n end.
Definition e_size (x : size) : json := e_int (size_num x).
(** view.rs L488-498 *)
Definition size_of (n : Z) : size := if (n =? -2)%Z then MatchParent else if (n =? -1)%Z then WrapContent else SFixed n.
Definition d_size (j : json) : option size := let? n := d_i32 j in Some (size_of n).

(** view.rs L500-506 *)
Inductive layout_orientation := LoVertical | LoUnspecified | LoHorizontal.
Definition layout_orientation_num (x : layout_orientation) : Z := match x with LoVertical => 1 | LoUnspecified => 0 | LoHorizontal => -1 end.
Definition layout_orientation_of (n : Z) : option layout_orientation :=
  if (n =? 1)%Z then Some LoVertical
  else if (n =? 0)%Z then Some LoUnspecified
  else if (n =? -1)%Z then Some LoHorizontal else None.
Definition d_orient (j : json) : option layout_orientation := let? n := d_i8 j in layout_orientation_of n.
Definition e_orient (x : layout_orientation) : json := e_int (layout_orientation_num x).

(** view.rs L520-521 (newtype struct: its number) *)
Definition gravity := N.
Definition d_gravity (j : json) : option gravity := d_u8 j.
Definition e_gravity (g : gravity) : json := e_u g.
(** view.rs L511-518 *)
Definition G_NONE : N := 0.
Definition G_CENTER_HORIZONTAL : N := 1.
Definition G_LEFT : N := 3.
Definition G_RIGHT : N := 5.
Definition G_CENTER_VERTICAL : N := 16.
Definition G_CENTER : N := 17.
Definition G_TOP : N := 48.
Definition G_BOTTOM : N := 80.
(** view.rs L526-532: all seven tests have this form *)
Definition gravity_has (mask : N) (g : gravity) : bool := N.land g mask =? mask.

(** view.rs L582-592 *)
Inductive ime_option := ImeNormal | ImeNone | ImeGo | ImeSearch | ImeSend | ImeNext | ImeDone.
Definition ime_option_num (x : ime_option) : Z := match x with ImeNormal => 0 | ImeNone => 1 | ImeGo => 2 | ImeSearch => 3 | ImeSend => 4 | ImeNext => 5 | ImeDone => 6 end.
Definition ime_option_of (n : Z) : option ime_option :=
  if (n =? 0)%Z then Some ImeNormal
  else if (n =? 1)%Z then Some ImeNone
  else if (n =? 2)%Z then Some ImeGo
  else if (n =? 3)%Z then Some ImeSearch
  else if (n =? 4)%Z then Some ImeSend
  else if (n =? 5)%Z then Some ImeNext
  else if (n =? 6)%Z then Some ImeDone else None.
Definition d_ime (j : json) : option ime_option := let? n := d_u8z j in ime_option_of n.
Definition e_ime (x : ime_option) : json := e_int (ime_option_num x).

(** view.rs L594-603 *)
Inductive input_type := ItNumberDecimal | ItNumberSigned | ItNumberSignedDecimal | ItPassword | ItPhone | ItText.
Definition input_type_num (x : input_type) : Z := match x with ItNumberDecimal => 8194 | ItNumberSigned => 4098 | ItNumberSignedDecimal => 12290 | ItPassword => 129 | ItPhone => 3 | ItText => 1 end.
Definition input_type_of (n : Z) : option input_type :=
  if (n =? 8194)%Z then Some ItNumberDecimal
  else if (n =? 4098)%Z then Some ItNumberSigned
  else if (n =? 12290)%Z then Some ItNumberSignedDecimal
  else if (n =? 129)%Z then Some ItPassword
  else if (n =? 3)%Z then Some ItPhone
  else if (n =? 1)%Z then Some ItText else None.
Definition d_input (j : json) : option input_type := let? n := d_u16z j in input_type_of n.
Definition e_input (x : input_type) : json := e_int (input_type_num x).

(** view.rs L605-612 *)
Inductive text_type := TtNormal | TtBold | TtItalic | TtBoldItalic.
Definition text_type_num (x : text_type) : Z := match x with TtNormal => 0 | TtBold => 1 | TtItalic => 2 | TtBoldItalic => 3 end.
Definition text_type_of (n : Z) : option text_type :=
  if (n =? 0)%Z then Some TtNormal
  else if (n =? 1)%Z then Some TtBold
  else if (n =? 2)%Z then Some TtItalic
  else if (n =? 3)%Z then Some TtBoldItalic else None.
Definition d_text_type (j : json) : option text_type := let? n := d_u8z j in text_type_of n.
Definition e_text_type (x : text_type) : json := e_int (text_type_num x).

(** view.rs L380-388 *)
Record image_config := {
  ic_res_name : option str;
  ic_rotate : Z;
  ic_scale_type : scale_type
}.
Definition image_config_names : list string := ["resName"; "rotate"; "scaleType"]%string.
Definition d_image (j : json) : option image_config :=
  let? fs := sf image_config_names j in
  match fs with
  | [v_res_name; v_rotate; v_scale_type] =>
    let? x_res_name := dflt (d_option d_str) None v_res_name in
    let? x_rotate := req d_i16 v_rotate in
    let? x_scale_type := req d_scale v_scale_type in
    Some {| ic_res_name := x_res_name; ic_rotate := x_rotate; ic_scale_type := x_scale_type |}
  | _ => None
  end.
Definition image_config_fields (x : image_config) : list (string * json) :=
  e_skip "resName" e_str (ic_res_name x) ++
  [("rotate"%string, e_int (ic_rotate x));
   ("scaleType"%string, e_scale (ic_scale_type x))].
Definition e_image (x : image_config) : json := e_obj (image_config_fields x).

(** view.rs L415-441 *)
Record layout_config := {
  lc_background_color : color;
  lc_gravity : gravity;
  lc_height : size;
  lc_layout_gravity : gravity;
  lc_margin_bottom : N;
  lc_margin_left : N;
  lc_margin_right : N;
  lc_margin_top : N;
  lc_orientation : layout_orientation;
  lc_padding_bottom : N;
  lc_padding_left : N;
  lc_padding_right : N;
  lc_padding_top : N;
  lc_weight : N;
  lc_weight_sum : N;
  lc_width : size
}.
Definition layout_config_names : list string := ["backgroundColor"; "gravity"; "height"; "layoutGravity"; "marginBottom"; "marginLeft"; "marginRight"; "marginTop"; "orientation"; "paddingBottom"; "paddingLeft"; "paddingRight"; "paddingTop"; "weight"; "weightSum"; "width"]%string.
Definition d_layout (j : json) : option layout_config :=
  let? fs := sf layout_config_names j in
  match fs with
  | [v_background_color; v_gravity; v_height; v_layout_gravity; v_margin_bottom; v_margin_left; v_margin_right; v_margin_top; v_orientation; v_padding_bottom; v_padding_left; v_padding_right; v_padding_top; v_weight; v_weight_sum; v_width] =>
    let? x_background_color := req d_color v_background_color in
    let? x_gravity := req d_gravity v_gravity in
    let? x_height := req d_size v_height in
    let? x_layout_gravity := req d_gravity v_layout_gravity in
    let? x_margin_bottom := req d_u32 v_margin_bottom in
    let? x_margin_left := req d_u32 v_margin_left in
    let? x_margin_right := req d_u32 v_margin_right in
    let? x_margin_top := req d_u32 v_margin_top in
    let? x_orientation := req d_orient v_orientation in
    let? x_padding_bottom := req d_u32 v_padding_bottom in
    let? x_padding_left := req d_u32 v_padding_left in
    let? x_padding_right := req d_u32 v_padding_right in
    let? x_padding_top := req d_u32 v_padding_top in
    let? x_weight := req d_u32 v_weight in
    let? x_weight_sum := req d_u32 v_weight_sum in
    let? x_width := req d_size v_width in
    Some {| lc_background_color := x_background_color; lc_gravity := x_gravity; lc_height := x_height; lc_layout_gravity := x_layout_gravity; lc_margin_bottom := x_margin_bottom; lc_margin_left := x_margin_left; lc_margin_right := x_margin_right; lc_margin_top := x_margin_top; lc_orientation := x_orientation; lc_padding_bottom := x_padding_bottom; lc_padding_left := x_padding_left; lc_padding_right := x_padding_right; lc_padding_top := x_padding_top; lc_weight := x_weight; lc_weight_sum := x_weight_sum; lc_width := x_width |}
  | _ => None
  end.
Definition layout_config_fields (x : layout_config) : list (string * json) :=
  [("backgroundColor"%string, e_color (lc_background_color x));
   ("gravity"%string, e_gravity (lc_gravity x));
   ("height"%string, e_size (lc_height x));
   ("layoutGravity"%string, e_gravity (lc_layout_gravity x));
   ("marginBottom"%string, e_u (lc_margin_bottom x));
   ("marginLeft"%string, e_u (lc_margin_left x));
   ("marginRight"%string, e_u (lc_margin_right x));
   ("marginTop"%string, e_u (lc_margin_top x));
   ("orientation"%string, e_orient (lc_orientation x));
   ("paddingBottom"%string, e_u (lc_padding_bottom x));
   ("paddingLeft"%string, e_u (lc_padding_left x));
   ("paddingRight"%string, e_u (lc_padding_right x));
   ("paddingTop"%string, e_u (lc_padding_top x));
   ("weight"%string, e_u (lc_weight x));
   ("weightSum"%string, e_u (lc_weight_sum x));
   ("width"%string, e_size (lc_width x))].
Definition e_layout (x : layout_config) : json := e_obj (layout_config_fields x).

(** view.rs L544-560 *)
Record text_config := {
  tc_hint : str;
  tc_hint_color : color;
  tc_ime_option : ime_option;
  tc_input_type : input_type;
  tc_line : N;
  tc_single_line : bool;
  tc_text : str;
  tc_text_color : color;
  tc_text_font : str;
  tc_text_size : N;
  tc_text_type : text_type
}.
Definition text_config_names : list string := ["hint"; "hintColor"; "imeOption"; "inputType"; "line"; "singleLine"; "text"; "textColor"; "textFont"; "textSize"; "textType"]%string.
Definition d_text (j : json) : option text_config :=
  let? fs := sf text_config_names j in
  match fs with
  | [v_hint; v_hint_color; v_ime_option; v_input_type; v_line; v_single_line; v_text; v_text_color; v_text_font; v_text_size; v_text_type] =>
    let? x_hint := req d_str v_hint in
    let? x_hint_color := req d_color v_hint_color in
    let? x_ime_option := req d_ime v_ime_option in
    let? x_input_type := req d_input v_input_type in
    let? x_line := req d_u32 v_line in
    let? x_single_line := req d_b01 v_single_line in
    let? x_text := req d_str v_text in
    let? x_text_color := req d_color v_text_color in
    let? x_text_font := req d_str v_text_font in
    let? x_text_size := req d_u32 v_text_size in
    let? x_text_type := req d_text_type v_text_type in
    Some {| tc_hint := x_hint; tc_hint_color := x_hint_color; tc_ime_option := x_ime_option; tc_input_type := x_input_type; tc_line := x_line; tc_single_line := x_single_line; tc_text := x_text; tc_text_color := x_text_color; tc_text_font := x_text_font; tc_text_size := x_text_size; tc_text_type := x_text_type |}
  | _ => None
  end.
Definition text_config_fields (x : text_config) : list (string * json) :=
  [("hint"%string, e_str (tc_hint x));
   ("hintColor"%string, e_color (tc_hint_color x));
   ("imeOption"%string, e_ime (tc_ime_option x));
   ("inputType"%string, e_input (tc_input_type x));
   ("line"%string, e_u (tc_line x));
   ("singleLine"%string, e_b01 (tc_single_line x));
   ("text"%string, e_str (tc_text x));
   ("textColor"%string, e_color (tc_text_color x));
   ("textFont"%string, e_str (tc_text_font x));
   ("textSize"%string, e_u (tc_text_size x));
   ("textType"%string, e_text_type (tc_text_type x))].
Definition e_text (x : text_config) : json := e_obj (text_config_fields x).

(** view.rs L253-306 *)
Record android_view := {
  av_ad_size : str;
  av_ad_unit_id : str;
  av_alpha : flt;
  av_checked : bool;
  av_choice_mode : choice_mode;
  av_clickable : bool;
  av_custom_view : str;
  av_divider_height : N;
  av_enabled : bool;
  av_first_day_of_week : N;
  av_id : str;
  av_image : image_config;
  av_indeterminate : bool;
  av_index : N;
  av_layout : layout_config;
  av_max : N;
  av_parent : option str;
  av_parent_type : Z;
  av_pre_id : option str;
  av_pre_index : Z;
  av_pre_parent : option str;
  av_pre_parent_type : Z;
  av_progress : N;
  av_progress_style : str;
  av_scale_x : flt;
  av_scale_y : flt;
  av_spinner_mode : spinner_mode;
  av_text : text_config;
  av_translation_x : flt;
  av_translation_y : flt;
  av_type : N
}.
Definition android_view_names : list string := ["adSize"; "adUnitId"; "alpha"; "checked"; "choiceMode"; "clickable"; "customView"; "dividerHeight"; "enabled"; "firstDayOfWeek"; "id"; "image"; "indeterminate"; "index"; "layout"; "max"; "parent"; "parentType"; "preId"; "preIndex"; "preParent"; "preParentType"; "progress"; "progressStyle"; "scaleX"; "scaleY"; "spinnerMode"; "text"; "translationX"; "translationY"; "type"]%string.
Definition d_view (j : json) : option android_view :=
  let? fs := sf android_view_names j in
  match fs with
  | [v_ad_size; v_ad_unit_id; v_alpha; v_checked; v_choice_mode; v_clickable; v_custom_view; v_divider_height; v_enabled; v_first_day_of_week; v_id; v_image; v_indeterminate; v_index; v_layout; v_max; v_parent; v_parent_type; v_pre_id; v_pre_index; v_pre_parent; v_pre_parent_type; v_progress; v_progress_style; v_scale_x; v_scale_y; v_spinner_mode; v_text; v_translation_x; v_translation_y; v_type] =>
    let? x_ad_size := req d_str v_ad_size in
    let? x_ad_unit_id := req d_str v_ad_unit_id in
    let? x_alpha := req d_f32 v_alpha in
    let? x_checked := req d_b01 v_checked in
    let? x_choice_mode := req d_choice v_choice_mode in
    let? x_clickable := req d_b01 v_clickable in
    let? x_custom_view := req d_str v_custom_view in
    let? x_divider_height := req d_u32 v_divider_height in
    let? x_enabled := req d_b01 v_enabled in
    let? x_first_day_of_week := req d_u8 v_first_day_of_week in
    let? x_id := req d_str v_id in
    let? x_image := req d_image v_image in
    let? x_indeterminate := req d_bstr v_indeterminate in
    let? x_index := req d_u32 v_index in
    let? x_layout := req d_layout v_layout in
    let? x_max := req d_u32 v_max in
    let? x_parent := dflt (d_option d_str) None v_parent in
    let? x_parent_type := req d_i8 v_parent_type in
    let? x_pre_id := dflt (d_option d_str) None v_pre_id in
    let? x_pre_index := req d_i32 v_pre_index in
    let? x_pre_parent := dflt (d_option d_str) None v_pre_parent in
    let? x_pre_parent_type := req d_i8 v_pre_parent_type in
    let? x_progress := req d_u32 v_progress in
    let? x_progress_style := req d_str v_progress_style in
    let? x_scale_x := req d_f32 v_scale_x in
    let? x_scale_y := req d_f32 v_scale_y in
    let? x_spinner_mode := req d_spinner v_spinner_mode in
    let? x_text := req d_text v_text in
    let? x_translation_x := req d_f32 v_translation_x in
    let? x_translation_y := req d_f32 v_translation_y in
    let? x_type := req d_u8 v_type in
    Some {| av_ad_size := x_ad_size; av_ad_unit_id := x_ad_unit_id; av_alpha := x_alpha; av_checked := x_checked; av_choice_mode := x_choice_mode; av_clickable := x_clickable; av_custom_view := x_custom_view; av_divider_height := x_divider_height; av_enabled := x_enabled; av_first_day_of_week := x_first_day_of_week; av_id := x_id; av_image := x_image; av_indeterminate := x_indeterminate; av_index := x_index; av_layout := x_layout; av_max := x_max; av_parent := x_parent; av_parent_type := x_parent_type; av_pre_id := x_pre_id; av_pre_index := x_pre_index; av_pre_parent := x_pre_parent; av_pre_parent_type := x_pre_parent_type; av_progress := x_progress; av_progress_style := x_progress_style; av_scale_x := x_scale_x; av_scale_y := x_scale_y; av_spinner_mode := x_spinner_mode; av_text := x_text; av_translation_x := x_translation_x; av_translation_y := x_translation_y; av_type := x_type |}
  | _ => None
  end.
Definition android_view_fields (x : android_view) : list (string * json) :=
  [("adSize"%string, e_str (av_ad_size x));
   ("adUnitId"%string, e_str (av_ad_unit_id x));
   ("alpha"%string, e_f32 (av_alpha x));
   ("checked"%string, e_b01 (av_checked x));
   ("choiceMode"%string, e_choice (av_choice_mode x));
   ("clickable"%string, e_b01 (av_clickable x));
   ("customView"%string, e_str (av_custom_view x));
   ("dividerHeight"%string, e_u (av_divider_height x));
   ("enabled"%string, e_b01 (av_enabled x));
   ("firstDayOfWeek"%string, e_u (av_first_day_of_week x));
   ("id"%string, e_str (av_id x));
   ("image"%string, e_image (av_image x));
   ("indeterminate"%string, e_bstr (av_indeterminate x));
   ("index"%string, e_u (av_index x));
   ("layout"%string, e_layout (av_layout x));
   ("max"%string, e_u (av_max x))] ++
  e_skip "parent" e_str (av_parent x) ++
  [("parentType"%string, e_int (av_parent_type x))] ++
  e_skip "preId" e_str (av_pre_id x) ++
  [("preIndex"%string, e_int (av_pre_index x))] ++
  e_skip "preParent" e_str (av_pre_parent x) ++
  [("preParentType"%string, e_int (av_pre_parent_type x));
   ("progress"%string, e_u (av_progress x));
   ("progressStyle"%string, e_str (av_progress_style x));
   ("scaleX"%string, e_f32 (av_scale_x x));
   ("scaleY"%string, e_f32 (av_scale_y x));
   ("spinnerMode"%string, e_spinner (av_spinner_mode x));
   ("text"%string, e_text (av_text x));
   ("translationX"%string, e_f32 (av_translation_x x));
   ("translationY"%string, e_f32 (av_translation_y x));
   ("type"%string, e_u (av_type x))].
Definition e_view (x : android_view) : json := e_obj (android_view_fields x).

(** view.rs L390-398, L443-464, L562-578 *)
Definition image_default : image_config := {| ic_res_name := None; ic_rotate := 0; ic_scale_type := ScCenter |}.
Definition layout_default : layout_config :=
  {| lc_background_color := color_of_u32 16777215; lc_gravity := G_NONE; lc_height := MatchParent; lc_layout_gravity := G_NONE;
     lc_margin_bottom := 0; lc_margin_left := 0; lc_margin_right := 0; lc_margin_top := 0; lc_orientation := LoVertical;
     lc_padding_bottom := 8; lc_padding_left := 8; lc_padding_right := 8; lc_padding_top := 8; lc_weight := 0; lc_weight_sum := 0;
     lc_width := WrapContent |}.
Definition text_default : text_config :=
  {| tc_hint := []; tc_hint_color := color_of_u32 4284513675; tc_ime_option := ImeNormal; tc_input_type := ItText; tc_line := 0;
     tc_single_line := false; tc_text := []; tc_text_color := color_of_u32 4278190080; tc_text_font := lit "default_font";
     tc_text_size := 12; tc_text_type := TtNormal |}.
(** view.rs L308-346 *)
Definition F32_ONE : flt := round_ratio F32 false 1 1.
Definition view_new_empty (id : str) (ty : N) (parent_id : str) (parent_type : Z) : android_view :=
  {| av_ad_size := []; av_ad_unit_id := []; av_alpha := F32_ONE; av_checked := false; av_choice_mode := CmNone; av_clickable := true;
     av_custom_view := []; av_divider_height := 0; av_enabled := true; av_first_day_of_week := 1; av_id := id; av_image := image_default;
     av_indeterminate := false; av_index := 0; av_layout := layout_default; av_max := 100; av_parent := Some parent_id;
     av_parent_type := parent_type; av_pre_id := Some []; av_pre_index := 0; av_pre_parent := None; av_pre_parent_type := 0;
     av_progress := 0; av_progress_style := []; av_scale_x := F32_ONE; av_scale_y := F32_ONE; av_spinner_mode := SmDropdown;
     av_text := text_default; av_translation_x := FZero false; av_translation_y := FZero false; av_type := ty |}.

(** view.rs L352-354, L356-358; serialising never fails *)
Definition view_line_parse (s : str) : option android_view := from_str d_view s.
Definition view_line_reconstruct (x : android_view) : str := to_string e_view x.

(** view.rs L168-169 *)
Definition layout := list android_view.
(** view.rs L200-208, without the JSON error *)
Record layout_parse_error := { lpe_view_before : option android_view; lpe_content : str; lpe_line : N }.
(** view.rs L175-197: reads up to and including the first empty line; returns what is left and how many
    items were taken from the iterator *)
Fixpoint layout_parse_iter (lines : list str) (acc : layout) (count : N) : res layout_parse_error (layout * list str * N) :=
  match lines with
  | [] => Ok (acc, [], count + 1)
  | l :: r =>
    match l with
    | [] => Ok (acc, r, count + 1)
    | _ =>
      match view_line_parse l with
      | Some v => layout_parse_iter r (acc ++ [v]) (count + 1)
      | None => Err {| lpe_view_before := last (map Some acc) None; lpe_content := l; lpe_line := count |}
      end
    end
  end.
(** view.rs L223-225 *)
Definition layout_parse (s : str) : res layout_parse_error layout :=
  let* r := layout_parse_iter (split_on NL s) [] 0 in Ok (fst (fst r)).
(** view.rs L227-243 *)
Definition layout_reconstruct (l : layout) : str :=
  trim (fold_left (fun acc v => acc ++ view_line_reconstruct v ++ [NL]) l []).

(** view.rs L7-15 *)
Record view := { vw_layouts : smap layout; vw_fabs : smap android_view }.
(** view.rs L119-147, without the JSON error *)
Inductive view_parse_error :=
| VInvalidHeader (line : N) (content : str)
| VLayoutParseError (screen_name container_name : str) (source : layout_parse_error)
| VFabParseError (screen_name : str) (line : N) (content : str)
| VEOFAfterFabHeader (screen_name : str) (line : N).
(** view.rs L27-66; [n] is the count of the CountingIterator (util.rs L28-31), whose wrap-around at 2^32 is
    not modelled. The loop runs at most once per line; running out of fuel is shown to be impossible. *)
Fixpoint view_loop (fuel : nat) (lines : list str) (acc : view) (n : N) : res view_parse_error view :=
  match fuel with
  | O => Panic
  | S fuel =>
    match lines with
    | [] => Ok acc
    | l :: r =>
      let n := n + 1 in
      if negb (starts_with [AT] l) then Ok acc
      else
        let* rest := unwrap (bdrop 1 l) in
        match split_once (lit ".") rest with
        | None => Err (VInvalidHeader n l)
        | Some (name, kind) =>
          if str_eqb kind (lit "xml") then
            match layout_parse_iter r [] 0 with
            | Ok (lay, r', c) =>
              view_loop fuel r' {| vw_layouts := sinsert name lay (vw_layouts acc); vw_fabs := vw_fabs acc |} (n + c)
            | Err e => Err (VLayoutParseError name kind e)
            | Panic => Panic
            end
          else if str_eqb kind (lit "xml_fab") then
            match r with
            | [] => Err (VEOFAfterFabHeader name (n + 1))
            | f :: r' =>
              match view_line_parse f with
              | None => Err (VFabParseError name (n + 1) l)
              | Some v =>
                view_loop fuel r' {| vw_layouts := vw_layouts acc; vw_fabs := sinsert name v (vw_fabs acc) |} (n + 1)
              end
            end
          else view_loop fuel r acc n
        end
    end
  end.
(** view.rs L21-69 *)
Definition view_parse (s : str) : res view_parse_error view :=
  let lines := split_on NL s in
  view_loop (S (length lines)) lines {| vw_layouts := []; vw_fabs := [] |} 0.
(** view.rs L71-115 *)
Definition view_reconstruct (v : view) : str :=
  trim_end
    (concat (map (fun kv => [AT] ++ fst kv ++ lit ".xml" ++ [NL] ++ layout_reconstruct (snd kv) ++ [NL]) (vw_layouts v)) ++
     [NL] ++
     concat (map (fun kv => [AT] ++ fst kv ++ lit ".xml_fab" ++ [NL] ++ view_line_reconstruct (snd kv) ++ [NL]) (vw_fabs v))).
