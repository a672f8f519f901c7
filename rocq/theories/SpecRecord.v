(** What the record lines of the data files mean: the fields of a JSON object (or array) and the values they stand for.
    Written from the serde attributes of /repo/src/parser/{file,library,resource,logic,view}.rs, /repo/src/color.rs and
    /repo/src/parser/serde_util.rs, without the decoders of the model. *)
From Verif Require Import Base Spec Flt Json M_Color M_File M_Library M_Resource M_Logic M_View M_Date M_Project SpecReading SpecJson SpecNumber.
From Coq Require Import QArith.
Local Open Scope Z_scope.

(** ** Structs (derive(Deserialize)) *)
(** the values of the fields, [None] for a missing one. By name: in any order, other names are ignored, no field may be
    repeated, all names must be valid text. By position: there may not be more values than fields. *)
Inductive fields_of (names : list string) : json -> list (option json) -> Prop :=
| fields_by_name kvs vs : Forall (fun kv => fst kv <> None) kvs ->
    Forall2 (fun n o => match o with
                        | Some v => only kvs (lit n) v
                        | None => ~ In (Some (lit n)) (map fst kvs)
                        end) names vs ->
    fields_of names (JObj kvs) vs
| fields_by_position l k : (length l + k)%nat = length names ->
    fields_of names (JArr l) (map Some l ++ repeat None k).
Definition record (fs : list (string * (option json -> Prop))) (j : json) : Prop :=
  exists vs, fields_of (map fst fs) j vs /\ Forall2 (fun f v => snd f v) fs vs.
(** a required field; an [Option] field *)
Definition given {A} (R : json -> A -> Prop) (a : A) (o : option json) : Prop := exists v, o = Some v /\ R v a.
Definition optional {A} (R : json -> A -> Prop) (a : option A) (o : option json) : Prop :=
  ((o = None \/ o = Some JNull) /\ a = None) \/ exists v b, o = Some v /\ v <> JNull /\ a = Some b /\ R v b.

(** ** Values *)
Definition text (j : json) (s : str) : Prop := j = JStr (Some s).
(** a number without fraction and exponent; -0 is not one *)
Definition whole (j : json) (z : Z) : Prop :=
  exists neg ds, j = JNum {| jneg := neg; jint := ds; jfrac := None; jexp := None |} /\
    z = (if neg then - decimal ds else decimal ds) /\ ~ (neg = true /\ z = 0).
Definition integer (lo hi : Z) (j : json) (z : Z) : Prop := whole j z /\ lo <= z <= hi.
Definition natural (hi : Z) (j : json) (n : N) : Prop := integer 0 hi j (Z.of_N n).
(** serde_repr enums, and enums by name *)
Definition coded {A} (table : list (Z * A)) (j : json) (a : A) : Prop := exists z, whole j z /\ In (z, a) table.
Definition named {A} (table : list (string * A)) (j : json) (a : A) : Prop :=
  exists s, In (s, a) table /\ (j = JStr (Some (lit s)) \/ j = JObj [(Some (lit s), JNull)]).
(** serde_util.rs: a boolean as a number, and as a text *)
Definition flag (j : json) (b : bool) : Prop := exists z, integer 0 255 j z /\ b = negb (z =? 0).
Definition truth (j : json) (b : bool) : Prop := j = JStr (Some (lit (if b then "true" else "false"))).
Definition list_of {A} (R : json -> A -> Prop) (j : json) (l : list A) : Prop := exists vs, j = JArr vs /\ Forall2 R vs l.
(** colours: an integer (u64 wraps to i64) or the integer part of another number, limited to the i32 range, and then as a
    u32 *)
Inductive colour : json -> color -> Prop :=
| colour_whole j z c : whole j z -> - 2 ^ 63 <= z < 2 ^ 64 ->
    Z.of_N (cval c) = (Z.min (Z.max (if z <? 2 ^ 63 then z else z - 2 ^ 64) (- 2 ^ 31)) (2 ^ 31 - 1)) mod 2 ^ 32 -> colour j c
| colour_float n y z c : float_text n y -> to_i32 y z -> Z.of_N (cval c) = z mod 2 ^ 32 -> colour (JNum n) c.
(** f32: an integer is rounded once, another number is first an f64 *)
Inductive real : json -> flt -> Prop :=
| real_nat j z x : whole j z -> 0 <= z < 2 ^ 64 -> nearest F32 false (inject_Z z) x -> real j x
| real_neg j z x : whole j z -> - 2 ^ 63 <= z < 0 -> nearest F32 true (inject_Z (- z)) x -> real j x
| real_float n y x : float_text n y -> to_f32 y x -> real (JNum n) x.

(** ** Records *)
(** file.rs L113-174 *)
Definition options_num (j : json) (o : activity_options) : Prop :=
  exists z, integer 0 255 j z /\ o = {| ao_toolbar := Z.testbit z 0; ao_fullscreen := Z.testbit z 1; ao_drawer := Z.testbit z 2; ao_fab := Z.testbit z 3 |}.
Definition file_item_reads (j : json) (x : file_item) : Prop := record
  [("fileName", given text (fi_filename x));
   ("fileType", given (coded [(0, FtActivity); (1, FtCustomView); (2, FtDrawer)]) (fi_type x));
   ("keyboardSetting", given (coded [(0, KbUnspecified); (1, KbVisible); (2, KbHidden)]) (fi_keyboard x));
   ("options", given options_num (fi_options x));
   ("orientation", given (coded [(0, OrPortrait); (1, OrLandscape); (2, OrBoth)]) (fi_orientation x));
   ("theme", given (coded [(-1, ThNone); (0, ThDefault); (1, ThActionbar); (2, ThFullscreen)]) (fi_theme x))]%string j.
(** library.rs L125-157 *)
Definition ad_unit_reads (j : json) (x : ad_unit) : Prop := record
  [("id", given text (au_id x)); ("name", given text (au_name x))]%string j.
Definition library_item_reads (j : json) (x : library_item) : Prop := record
  [("adUnits", given (list_of ad_unit_reads) (li_ad_units x));
   ("data", given text (li_data x));
   ("libType", given (natural 255) (li_lib_type x));
   ("reserved1", given text (li_reserved1 x));
   ("reserved2", given text (li_reserved2 x));
   ("reserved3", given text (li_reserved3 x));
   ("testDevices", given (list_of text) (li_test_devices x));
   ("useYn", given text (li_use_yn x))]%string j.
(** resource.rs L132-145 *)
Definition resource_item_reads (j : json) (x : resource_item) : Prop := record
  [("resFullName", given text (ri_full_name x)); ("resName", given text (ri_name x)); ("resType", given (natural 255) (ri_type x))]%string j.
(** logic.rs L709-719, L952-959, L1099-1112 *)
Definition component_reads (j : json) (x : component) : Prop := record
  [("componentId", given text (co_id x)); ("param1", given text (co_param1 x)); ("param2", given text (co_param2 x));
   ("param3", given text (co_param3 x)); ("type", given (natural 255) (co_type x))]%string j.
Definition event_reads (j : json) (x : event) : Prop := record
  [("eventName", given text (ev_name x)); ("eventType", given (natural 255) (ev_type x)); ("targetId", given text (ev_target_id x));
   ("targetType", given (natural 255) (ev_target_type x))]%string j.
Definition i32 := integer (- 2 ^ 31) (2 ^ 31 - 1).
Definition block_reads (j : json) (x : block) : Prop := record
  [("color", given colour (bl_color x)); ("id", given text (bl_id x)); ("nextBlock", given i32 (bl_next_block x));
   ("opCode", given text (bl_op_code x)); ("parameters", given (list_of text) (bl_parameters x)); ("spec", given text (bl_spec x));
   ("subStack1", given i32 (bl_sub_stack1 x)); ("subStack2", given i32 (bl_sub_stack2 x)); ("type", given text (bl_type x));
   ("typeName", given text (bl_type_name x))]%string j.
(** view.rs L380-413 *)
Definition image_reads (j : json) (x : image_config) : Prop := record
  [("resName", optional text (ic_res_name x));
   ("rotate", given (integer (-32768) 32767) (ic_rotate x));
   ("scaleType", given (named [("CENTER", ScCenter); ("FIT_XY", ScFitXy); ("FIT_START", ScFitStart); ("FIT_CENTER", ScFitCenter);
      ("FIT_END", ScFitEnd); ("CENTER_CROP", ScCenterCrop); ("CENTER_INSIDE", ScCenterInside)]) (ic_scale_type x))]%string j.
(** view.rs L415-521; sizes as the code has them *)
Definition u32 := natural (2 ^ 32 - 1).
Definition size_value (j : json) (s : size) : Prop := exists z, i32 j z /\
  s = (if z =? -2 then MatchParent else if z =? -1 then WrapContent else SFixed z).
Definition layout_reads (j : json) (x : layout_config) : Prop := record
  [("backgroundColor", given colour (lc_background_color x));
   ("gravity", given (natural 255) (lc_gravity x));
   ("height", given size_value (lc_height x));
   ("layoutGravity", given (natural 255) (lc_layout_gravity x));
   ("marginBottom", given u32 (lc_margin_bottom x));
   ("marginLeft", given u32 (lc_margin_left x));
   ("marginRight", given u32 (lc_margin_right x));
   ("marginTop", given u32 (lc_margin_top x));
   ("orientation", given (coded [(1, LoVertical); (0, LoUnspecified); (-1, LoHorizontal)]) (lc_orientation x));
   ("paddingBottom", given u32 (lc_padding_bottom x));
   ("paddingLeft", given u32 (lc_padding_left x));
   ("paddingRight", given u32 (lc_padding_right x));
   ("paddingTop", given u32 (lc_padding_top x));
   ("weight", given u32 (lc_weight x));
   ("weightSum", given u32 (lc_weight_sum x));
   ("width", given size_value (lc_width x))]%string j.
(** view.rs L544-612 *)
Definition text_reads (j : json) (x : text_config) : Prop := record
  [("hint", given text (tc_hint x));
   ("hintColor", given colour (tc_hint_color x));
   ("imeOption", given (coded [(0, ImeNormal); (1, ImeNone); (2, ImeGo); (3, ImeSearch); (4, ImeSend); (5, ImeNext); (6, ImeDone)]) (tc_ime_option x));
   ("inputType", given (coded [(8194, ItNumberDecimal); (4098, ItNumberSigned); (12290, ItNumberSignedDecimal); (129, ItPassword); (3, ItPhone); (1, ItText)]) (tc_input_type x));
   ("line", given u32 (tc_line x));
   ("singleLine", given flag (tc_single_line x));
   ("text", given text (tc_text x));
   ("textColor", given colour (tc_text_color x));
   ("textFont", given text (tc_text_font x));
   ("textSize", given u32 (tc_text_size x));
   ("textType", given (coded [(0, TtNormal); (1, TtBold); (2, TtItalic); (3, TtBoldItalic)]) (tc_text_type x))]%string j.
(** view.rs L253-306, L365-378 *)
Definition view_reads (j : json) (x : android_view) : Prop := record
  [("adSize", given text (av_ad_size x));
   ("adUnitId", given text (av_ad_unit_id x));
   ("alpha", given real (av_alpha x));
   ("checked", given flag (av_checked x));
   ("choiceMode", given (coded [(0, CmNone); (1, CmSingle); (2, CmMulti)]) (av_choice_mode x));
   ("clickable", given flag (av_clickable x));
   ("customView", given text (av_custom_view x));
   ("dividerHeight", given u32 (av_divider_height x));
   ("enabled", given flag (av_enabled x));
   ("firstDayOfWeek", given (natural 255) (av_first_day_of_week x));
   ("id", given text (av_id x));
   ("image", given image_reads (av_image x));
   ("indeterminate", given truth (av_indeterminate x));
   ("index", given u32 (av_index x));
   ("layout", given layout_reads (av_layout x));
   ("max", given u32 (av_max x));
   ("parent", optional text (av_parent x));
   ("parentType", given (integer (-128) 127) (av_parent_type x));
   ("preId", optional text (av_pre_id x));
   ("preIndex", given i32 (av_pre_index x));
   ("preParent", optional text (av_pre_parent x));
   ("preParentType", given (integer (-128) 127) (av_pre_parent_type x));
   ("progress", given u32 (av_progress x));
   ("progressStyle", given text (av_progress_style x));
   ("scaleX", given real (av_scale_x x));
   ("scaleY", given real (av_scale_y x));
   ("spinnerMode", given (coded [(0, SmDialog); (1, SmDropdown)]) (av_spinner_mode x));
   ("text", given text_reads (av_text x));
   ("translationX", given real (av_translation_x x));
   ("translationY", given real (av_translation_y x));
   ("type", given (natural 255) (av_type x))]%string j.
(** serde_util.rs L39-54 and project.rs L6-47: a number as a text of digits, possibly after +; a field by name *)
Definition u16_text (j : json) (n : N) : Prop :=
  exists sign ds, text j (sign ++ ds) /\ In sign [[]; lit "+"] /\ digits ds /\ Z.of_N n = decimal ds /\ (n < 65536)%N.
Definition field {A} (kvs : list (option str * json)) (k : string) (R : json -> A -> Prop) (x : A) : Prop :=
  exists v, only kvs (lit k) v /\ R v x.
