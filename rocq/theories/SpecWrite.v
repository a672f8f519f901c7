(** How the data files are written, character by character: record lines, sections and their order. Written from the struct
    declarations and serde attributes of /repo/src/parser/{file,library,resource,logic,view,project}.rs, from
    /repo/src/color.rs, /repo/src/parser/serde_util.rs and from the format of serde_json, without the encoders of the model. *)
From Verif Require Import Base Spec Flt Json M_Color M_File M_Library M_Resource M_Logic M_View M_Project SpecJson SpecNumber SpecDate SpecTools.
Local Open Scope Z_scope.

(** ** Values *)
(** texts with something between them *)
Fixpoint separated (by_ : str) (l : list str) : str :=
  match l with [] => [] | [x] => x | x :: r => x ++ by_ ++ separated by_ r end.
(** a character within quotes *)
Definition escapes : list (char * string) :=
  [(8%N, "\b"); (9%N, "\t"); (10%N, "\n"); (12%N, "\f"); (13%N, "\r"); (34%N, "\"""); (92%N, "\\")]%string.
Inductive escaped (c : char) : str -> Prop :=
| escaped_short e : In (c, e) escapes -> escaped c (lit e)
| escaped_code h l : (c < 32)%N -> ~ In c (map fst escapes) -> nth_error (lit "0123456789abcdef") (N.to_nat (c / 16)) = Some h ->
    nth_error (lit "0123456789abcdef") (N.to_nat (c mod 16)) = Some l -> escaped c (lit "\u00" ++ [h; l])
| escaped_not : (32 <= c)%N -> ~ In c (map fst escapes) -> escaped c [c].
Definition a_text (s : str) (t : str) : Prop := exists es, Forall2 escaped s es /\ t = lit """" ++ concat es ++ lit """".
Definition a_number (z : Z) (t : str) : Prop := exists d, numeral (Z.abs_N z) d /\ t = (if z <? 0 then lit "-" else []) ++ d.
Definition a_count (n : N) : str -> Prop := a_number (Z.of_N n).
Definition a_list {A} (R : A -> str -> Prop) (l : list A) (t : str) : Prop := exists ts, Forall2 R l ts /\ t = lit "[" ++ separated (lit ",") ts ++ lit "]".
Definition an_object (fs : list (string * (str -> Prop))) (t : str) : Prop :=
  exists ts, Forall2 (fun f v => snd f v) fs ts /\
    t = lit "{" ++ separated (lit ",") (map (fun nv => lit """" ++ lit (fst nv) ++ lit """:" ++ snd nv) (combine (map fst fs) ts)) ++ lit "}".
(** a field that is left out if it has no value *)
Definition if_any {A} (name : string) (R : A -> str -> Prop) (o : option A) : list (string * (str -> Prop)) :=
  match o with Some a => [(name, R a)] | None => [] end.
Definition a_flag (b : bool) (t : str) : Prop := t = if b then lit "1" else lit "0".
Definition a_truth (b : bool) (t : str) : Prop := t = if b then lit """true""" else lit """false""".
Definition a_bool (b : bool) (t : str) : Prop := t = if b then lit "true" else lit "false".
(** enums by their number, and by their name *)
Definition a_code {A} (table : list (Z * A)) (a : A) (t : str) : Prop := exists z, In (z, a) table /\ a_number z t.
Definition a_name {A} (table : list (string * A)) (a : A) (t : str) : Prop := exists s, In (s, a) table /\ t = lit """" ++ lit s ++ lit """".
(** a colour is a number of 32 bits with a sign *)
Definition a_colour (c : color) (t : str) : Prop :=
  exists z, a_number z t /\ - 2 ^ 31 <= z < 2 ^ 31 /\ Z.of_N (cval c) = z mod 2 ^ 32.
(** the shortest decimal, see C76 *)
Definition number_chars (n : jnum) : str :=
  (if jneg n then lit "-" else []) ++ jint n ++ (match jfrac n with Some f => lit "." ++ f | None => [] end) ++
  (match jexp n with Some (s, e) => lit "e" ++ (if s then lit "-" else []) ++ e | None => [] end).
Inductive a_float : flt -> str -> Prop :=
| float_zero s : a_float (FZero s) (if s then lit "-0.0" else lit "0.0")
| float_finite s m e D E n : shortest_decimal false F32 s m e D E -> json_decimal s D E n -> a_float (FFin s m e) (number_chars n)
| float_nan : a_float FNan (lit "null")
| float_infinite s : a_float (FInf s) (lit "null").

(** ** Records *)
(** file.rs L113-203 *)
Definition options_sum (o : activity_options) : Z :=
  Z.b2z (ao_toolbar o) + 2 * Z.b2z (ao_fullscreen o) + 4 * Z.b2z (ao_drawer o) + 8 * Z.b2z (ao_fab o).
Definition file_item_writes (x : file_item) : str -> Prop := an_object
  [("fileName", a_text (fi_filename x));
   ("fileType", a_code [(0, FtActivity); (1, FtCustomView); (2, FtDrawer)] (fi_type x));
   ("keyboardSetting", a_code [(0, KbUnspecified); (1, KbVisible); (2, KbHidden)] (fi_keyboard x));
   ("options", a_number (options_sum (fi_options x)));
   ("orientation", a_code [(0, OrPortrait); (1, OrLandscape); (2, OrBoth)] (fi_orientation x));
   ("theme", a_code [(-1, ThNone); (0, ThDefault); (1, ThActionbar); (2, ThFullscreen)] (fi_theme x))]%string.
(** library.rs L125-157 *)
Definition ad_unit_writes (x : ad_unit) : str -> Prop := an_object [("id", a_text (au_id x)); ("name", a_text (au_name x))]%string.
Definition library_item_writes (x : library_item) : str -> Prop := an_object
  [("adUnits", a_list ad_unit_writes (li_ad_units x)); ("data", a_text (li_data x)); ("libType", a_count (li_lib_type x));
   ("reserved1", a_text (li_reserved1 x)); ("reserved2", a_text (li_reserved2 x)); ("reserved3", a_text (li_reserved3 x));
   ("testDevices", a_list a_text (li_test_devices x)); ("useYn", a_text (li_use_yn x))]%string.
(** resource.rs L132-145 *)
Definition resource_item_writes (x : resource_item) : str -> Prop := an_object
  [("resFullName", a_text (ri_full_name x)); ("resName", a_text (ri_name x)); ("resType", a_count (ri_type x))]%string.
(** logic.rs L709-719, L952-959, L1099-1112 *)
Definition component_writes (x : component) : str -> Prop := an_object
  [("componentId", a_text (co_id x)); ("param1", a_text (co_param1 x)); ("param2", a_text (co_param2 x)); ("param3", a_text (co_param3 x));
   ("type", a_count (co_type x))]%string.
Definition event_writes (x : event) : str -> Prop := an_object
  [("eventName", a_text (ev_name x)); ("eventType", a_count (ev_type x)); ("targetId", a_text (ev_target_id x)); ("targetType", a_count (ev_target_type x))]%string.
Definition block_writes (x : block) : str -> Prop := an_object
  [("color", a_colour (bl_color x)); ("id", a_text (bl_id x)); ("nextBlock", a_number (bl_next_block x)); ("opCode", a_text (bl_op_code x));
   ("parameters", a_list a_text (bl_parameters x)); ("spec", a_text (bl_spec x)); ("subStack1", a_number (bl_sub_stack1 x));
   ("subStack2", a_number (bl_sub_stack2 x)); ("type", a_text (bl_type x)); ("typeName", a_text (bl_type_name x))]%string.
(** logic.rs L446-448, L601-603, L867-869 *)
Definition variable_line (t : variable_type) (name : str) : str :=
  match t with VtBoolean => lit "0:" | VtInteger => lit "1:" | VtString => lit "2:" | VtHashMap => lit "3:" end ++ name.
Definition more_block_line (m : more_block) : str := mb_id m ++ lit ":" ++ mb_spec m.
(** view.rs L380-413 *)
Definition image_writes (x : image_config) : str -> Prop := an_object (
  if_any "resName"%string a_text (ic_res_name x) ++
  [("rotate", a_number (ic_rotate x));
   ("scaleType", a_name [("CENTER", ScCenter); ("FIT_XY", ScFitXy); ("FIT_START", ScFitStart); ("FIT_CENTER", ScFitCenter);
      ("FIT_END", ScFitEnd); ("CENTER_CROP", ScCenterCrop); ("CENTER_INSIDE", ScCenterInside)] (ic_scale_type x))]%string).
(** view.rs L415-521; sizes as the code has them *)
Definition a_size (s : size) : str -> Prop := a_number (match s with MatchParent => -2 | WrapContent => -1 | SFixed n => n end).
Definition layout_writes (x : layout_config) : str -> Prop := an_object
  [("backgroundColor", a_colour (lc_background_color x)); ("gravity", a_count (lc_gravity x)); ("height", a_size (lc_height x));
   ("layoutGravity", a_count (lc_layout_gravity x)); ("marginBottom", a_count (lc_margin_bottom x)); ("marginLeft", a_count (lc_margin_left x));
   ("marginRight", a_count (lc_margin_right x)); ("marginTop", a_count (lc_margin_top x));
   ("orientation", a_code [(1, LoVertical); (0, LoUnspecified); (-1, LoHorizontal)] (lc_orientation x));
   ("paddingBottom", a_count (lc_padding_bottom x)); ("paddingLeft", a_count (lc_padding_left x)); ("paddingRight", a_count (lc_padding_right x));
   ("paddingTop", a_count (lc_padding_top x)); ("weight", a_count (lc_weight x)); ("weightSum", a_count (lc_weight_sum x)); ("width", a_size (lc_width x))]%string.
(** view.rs L544-612 *)
Definition text_writes (x : text_config) : str -> Prop := an_object
  [("hint", a_text (tc_hint x)); ("hintColor", a_colour (tc_hint_color x));
   ("imeOption", a_code [(0, ImeNormal); (1, ImeNone); (2, ImeGo); (3, ImeSearch); (4, ImeSend); (5, ImeNext); (6, ImeDone)] (tc_ime_option x));
   ("inputType", a_code [(8194, ItNumberDecimal); (4098, ItNumberSigned); (12290, ItNumberSignedDecimal); (129, ItPassword); (3, ItPhone); (1, ItText)] (tc_input_type x));
   ("line", a_count (tc_line x)); ("singleLine", a_flag (tc_single_line x)); ("text", a_text (tc_text x)); ("textColor", a_colour (tc_text_color x));
   ("textFont", a_text (tc_text_font x)); ("textSize", a_count (tc_text_size x));
   ("textType", a_code [(0, TtNormal); (1, TtBold); (2, TtItalic); (3, TtBoldItalic)] (tc_text_type x))]%string.
(** view.rs L253-306, L365-378 *)
Definition view_writes (x : android_view) : str -> Prop := an_object (
  [("adSize", a_text (av_ad_size x)); ("adUnitId", a_text (av_ad_unit_id x)); ("alpha", a_float (av_alpha x)); ("checked", a_flag (av_checked x));
   ("choiceMode", a_code [(0, CmNone); (1, CmSingle); (2, CmMulti)] (av_choice_mode x)); ("clickable", a_flag (av_clickable x));
   ("customView", a_text (av_custom_view x)); ("dividerHeight", a_count (av_divider_height x)); ("enabled", a_flag (av_enabled x));
   ("firstDayOfWeek", a_count (av_first_day_of_week x)); ("id", a_text (av_id x)); ("image", image_writes (av_image x));
   ("indeterminate", a_truth (av_indeterminate x)); ("index", a_count (av_index x)); ("layout", layout_writes (av_layout x)); ("max", a_count (av_max x))]%string ++
  if_any "parent"%string a_text (av_parent x) ++ [("parentType", a_number (av_parent_type x))]%string ++
  if_any "preId"%string a_text (av_pre_id x) ++ [("preIndex", a_number (av_pre_index x))]%string ++
  if_any "preParent"%string a_text (av_pre_parent x) ++
  [("preParentType", a_number (av_pre_parent_type x)); ("progress", a_count (av_progress x)); ("progressStyle", a_text (av_progress_style x));
   ("scaleX", a_float (av_scale_x x)); ("scaleY", a_float (av_scale_y x)); ("spinnerMode", a_code [(0, SmDialog); (1, SmDropdown)] (av_spinner_mode x));
   ("text", text_writes (av_text x)); ("translationX", a_float (av_translation_x x)); ("translationY", a_float (av_translation_y x));
   ("type", a_count (av_type x))]%string).
(** the colours and reals of a view are of 32 bits *)
Definition view_bits (x : android_view) : Prop :=
  Forall (fun c => (cval c < 2 ^ 32)%N) [lc_background_color (av_layout x); tc_hint_color (av_text x); tc_text_color (av_text x)] /\
  Forall (fun f => canonical F32 f = true) [av_alpha x; av_scale_x x; av_scale_y x; av_translation_x x; av_translation_y x].
(** project.rs L6-47, serde_util.rs L24-54: two numbers as texts; the date of the creation second, each part without
    leading zeros *)
Definition a_number_text (n : N) (t : str) : Prop := exists d, numeral n d /\ t = lit """" ++ d ++ lit """".
Definition a_date (seconds : N) (t : str) : Prop :=
  exists zs s ds, Forall2 a_number zs ds /\ second_of zs s /\ - 2 ^ 63 <= s < 2 ^ 63 /\ Z.of_N seconds = s mod 2 ^ 64 /\ t = lit """" ++ concat ds ++ lit """".
Definition project_writes (x : project) : str -> Prop := an_object
  [("sc_id", a_number_text (pj_id x)); ("my_app_name", a_text (pj_app_name x)); ("my_ws_name", a_text (pj_workspace_name x));
   ("my_sc_pkg_name", a_text (pj_package_name x)); ("sc_ver_code", a_number_text (pj_version_code x)); ("sc_ver_name", a_text (pj_version_name x));
   ("my_sc_reg_dt", a_date (pj_date_created x)); ("custom_icon", a_bool (pj_custom_icon x)); ("color_primary", a_colour (pal_primary (pj_palette x)));
   ("color_primary_dark", a_colour (pal_primary_dark (pj_palette x))); ("color_accent", a_colour (pal_accent (pj_palette x)));
   ("color_control_normal", a_colour (pal_control_normal (pj_palette x))); ("color_control_highlight", a_colour (pal_control_highlight (pj_palette x)));
   ("sketchware_ver", a_count (pj_sketchware_version x))]%string.

(** ** Data files *)
Definition NEWLINE : str := [10%N].
Definition BLANK_LINE : str := [10%N; 10%N].
(** file.rs L66-91 *)
Definition file_writes (f : file) (t : str) : Prop :=
  exists as_ cs, Forall2 file_item_writes (f_activities f) as_ /\ Forall2 file_item_writes (f_custom_views f) cs /\
    t = lit "@activity" ++ NEWLINE ++ separated NEWLINE as_ ++ NEWLINE ++ lit "@customview" ++ NEWLINE ++ separated NEWLINE cs.
(** resource.rs L71-107; every image and sound ends its line, the last font does not *)
Definition resource_writes (r : resource) (t : str) : Prop :=
  exists is ss fs, Forall2 resource_item_writes (rs_images r) is /\ Forall2 resource_item_writes (rs_sounds r) ss /\ Forall2 resource_item_writes (rs_fonts r) fs /\
    t = separated NEWLINE (lit "@images" :: is ++ lit "@sounds" :: ss ++ [lit "@fonts"]) ++ NEWLINE ++ separated NEWLINE fs.
(** library.rs L68-93 *)
Definition library_writes (l : library) (t : str) : Prop :=
  exists a b c d, library_item_writes (l_firebase l) a /\ library_item_writes (l_compat l) b /\ library_item_writes (l_admob l) c /\ library_item_writes (l_google_map l) d /\
    t = separated NEWLINE [lit "@firebaseDB"; a; lit "@compat"; b; lit "@admob"; c; lit "@googleMap"; d].
(** a text without the line ends at its end, and without those around it *)
Definition without_end (t u : str) : Prop := (exists k, t = u ++ repeat 10%N k) /\ forall r, u <> r ++ [10%N].
Definition without_ends (t u : str) : Prop := (exists j, without_end t (repeat 10%N j ++ u)) /\ forall r, u <> 10%N :: r.
(** view.rs L71-115, L227-243: a layout without views is followed by a blank line, as are the layouts together; line ends at the end of the
    text are left out *)
Definition layout_lines_write (kv : str * layout) (ls : list str) : Prop :=
  exists ts, Forall2 view_writes (snd kv) ts /\ ls = (lit "@" ++ fst kv ++ lit ".xml") :: match ts with [] => [[]] | _ => ts end.
Definition fab_lines_write (kv : str * android_view) (ls : list str) : Prop :=
  exists t, view_writes (snd kv) t /\ ls = [lit "@" ++ fst kv ++ lit ".xml_fab"; t].
Definition view_file_writes (v : view) (t : str) : Prop :=
  exists ls fs, Forall2 layout_lines_write (vw_layouts v) ls /\ Forall2 fab_lines_write (vw_fabs v) fs /\
    without_end (separated NEWLINE (concat ls ++ [[]] ++ concat fs)) t.
(** logic.rs L165-251: a section is its header and its lines; the containers of a screen are one text, empty if there are none. The texts are
    separated by blank lines *)
Definition section_text (screen kind : str) (body : list str) : str := separated NEWLINE ((lit "@" ++ screen ++ lit ".java_" ++ kind) :: body).
Definition pool_texts {A} (kind : string) (get : screen_logic -> option A) (R : A -> list str -> Prop) (ss : list screen_logic) (ts : list str) : Prop :=
  exists us, Forall2 (fun s u => match get s with
                                 | Some a => exists body, R a body /\ u = [section_text (sl_name s) (lit kind) body]
                                 | None => u = []
                                 end) ss us /\ ts = concat us.
Definition containers_text (s : screen_logic) (t : str) : Prop :=
  exists us, Forall2 (fun kv u => exists bs, Forall2 block_writes (snd kv) bs /\ u = section_text (sl_name s) (fst kv) bs) (sl_block_containers s) us /\
    t = separated BLANK_LINE us.
Definition logic_writes (l : logic) (t : str) : Prop :=
  let ss := map snd l in
  exists v li co ev mo bl,
    pool_texts "var" sl_variables (fun p body => body = map (fun kv => variable_line (va_type (snd kv)) (va_name (snd kv))) p) ss v /\
    pool_texts "list" sl_list_variables (fun p body => body = map (fun kv => variable_line (lv_type (snd kv)) (lv_name (snd kv))) p) ss li /\
    pool_texts "components" sl_components (Forall2 component_writes) ss co /\
    pool_texts "events" sl_events (Forall2 event_writes) ss ev /\
    pool_texts "func" sl_more_blocks (fun p body => body = map (fun kv => more_block_line (snd kv)) p) ss mo /\
    Forall2 containers_text ss bl /\
    without_ends (separated BLANK_LINE (v ++ li ++ co ++ ev ++ mo ++ bl)) t.

(** ** What is new *)
Definition exactly (s : string) (t : str) : Prop := t = lit s.
(** view.rs L314-346, L390-398, L445-464, L562-578 *)
Definition new_view_writes (id : str) (type : N) (parent : str) (parent_type : Z) : str -> Prop := an_object
  [("adSize", exactly """"""); ("adUnitId", exactly """"""); ("alpha", exactly "1.0"); ("checked", exactly "0"); ("choiceMode", exactly "0");
   ("clickable", exactly "1"); ("customView", exactly """"""); ("dividerHeight", exactly "0"); ("enabled", exactly "1"); ("firstDayOfWeek", exactly "1");
   ("id", a_text id); ("image", exactly "{""rotate"":0,""scaleType"":""CENTER""}"); ("indeterminate", exactly """false"""); ("index", exactly "0");
   ("layout", exactly "{""backgroundColor"":16777215,""gravity"":0,""height"":-2,""layoutGravity"":0,""marginBottom"":0,""marginLeft"":0,""marginRight"":0,""marginTop"":0,""orientation"":1,""paddingBottom"":8,""paddingLeft"":8,""paddingRight"":8,""paddingTop"":8,""weight"":0,""weightSum"":0,""width"":-1}");
   ("max", exactly "100"); ("parent", a_text parent); ("parentType", a_number parent_type); ("preId", exactly """"""); ("preIndex", exactly "0");
   ("preParentType", exactly "0"); ("progress", exactly "0"); ("progressStyle", exactly """"""); ("scaleX", exactly "1.0"); ("scaleY", exactly "1.0");
   ("spinnerMode", exactly "1");
   ("text", exactly "{""hint"":"""",""hintColor"":-10453621,""imeOption"":0,""inputType"":1,""line"":0,""singleLine"":0,""text"":"""",""textColor"":-16777216,""textFont"":""default_font"",""textSize"":12,""textType"":0}");
   ("translationX", exactly "0.0"); ("translationY", exactly "0.0"); ("type", a_count type)]%string.
(** logic.rs L723-740: parameters that are not given are empty *)
Definition new_component_writes (id : str) (params : list str) (type : N) : str -> Prop := an_object
  [("componentId", a_text id); ("param1", a_text (nth 0 params [])); ("param2", a_text (nth 1 params [])); ("param3", a_text (nth 2 params [])); ("type", a_count type)]%string.
