(** What is written for a project of the API, used in the statements of P_Into.v. Field by field for the records of views,
    block by block for code; nothing here refers to the functions of A_Block, A_View, A_Screen and A_Project that write. *)
From Verif Require Import Base Dec Flt M_Color M_Raw M_Project M_File M_Library M_Resource M_View M_Logic M_Parsed A_Block A_View A_Screen A_Project
  Spec SpecLines SpecScreen.

(** ** Code *)
Definition len {A} (l : list A) : N := N.of_nat (length l).
(** the word of a spec for an item *)
Definition dotted (letter : string) (n : option str) : str := lit letter ++ match n with Some x => lit "." ++ x | None => [] end.
Definition word (i : spec_item ablock) : str :=
  match i with
  | SText t => t
  | SParam (ArgString n _) => dotted "%s" n
  | SParam (ArgNumber n _) => dotted "%d" n
  | SParam (ArgBoolean n _) => dotted "%b" n
  | SParam (ArgMenu n _) => dotted "%m" (Some n)
  end.
Definition spec_text (items : list (spec_item ablock)) : str := join 32 (map word items).
(** the letter and the name of a type of block; a list has no name *)
Definition type_letter (t : block_type) : str :=
  lit match t with
      | TRegular => " "
      | TArgument RBoolean => "b" | TArgument RString => "s" | TArgument RNumber => "d"
      | TArgument (RView _) => "v" | TArgument (RComponent _) => "p" | TArgument (RList _) => "l"
      | TControl OneNest => "c" | TControl TwoNest => "e" | TControl EndingBlock => "f"
      end.
Definition type_names (t : block_type) : str := match t with TArgument (RView n) | TArgument (RComponent n) => n | _ => [] end.
(** the parameter of an argument that is not a block and not a truth value *)
Inductive plain_text : argument ablock -> str -> Prop :=
| PString n s : plain_text (ArgString n (AValue s)) s
| PNumber n x : plain_text (ArgNumber n (AValue x)) (display_f64 x)
| PMenu n s : plain_text (ArgMenu n (AValue s)) s
| PStringEmpty n : plain_text (ArgString n AEmpty) []
| PNumberEmpty n : plain_text (ArgNumber n AEmpty) []
| PBooleanEmpty n : plain_text (ArgBoolean n AEmpty) []
| PMenuEmpty n : plain_text (ArgMenu n AEmpty) [].
Inductive block_argument : argument ablock -> ablock -> Prop :=
| BString n b : block_argument (ArgString n (ABlock b)) b
| BNumber n b : block_argument (ArgNumber n (ABlock b)) b
| BBoolean n b : block_argument (ArgBoolean n (ABlock b)) b
| BMenu n b : block_argument (ArgMenu n (ABlock b)) b.
(** a truth value is written as a block: green (#5cb722), without parameters *)
Definition truth_block (v : bool) (id : N) : block :=
  {| bl_color := from_rgb 0x5c 0xb7 0x22; bl_id := dec_of_N id; bl_next_block := (-1)%Z; bl_op_code := lit (if v then "true" else "false"); bl_parameters := [];
     bl_spec := lit (if v then "true" else "false"); bl_sub_stack1 := (-1)%Z; bl_sub_stack2 := (-1)%Z; bl_type := lit "b"; bl_type_name := [] |}.
(** [w_block b id last out]: [out] is written for [b] if its id is [id]; [last] says whether it is the last one of its stack.
    The block comes first, then those of its arguments, of its first and of its second stack, numbered in this order.
    References to an argument or a stack name the last block written for it. *)
Inductive w_block : ablock -> N -> bool -> list block -> Prop :=
| WBlock s1 s2 col op items ty id last ps a z1 b1 z2 b2 :
    w_args items (id + 1) ps a ->
    w_sub s1 (id + 1 + len a) z1 b1 ->
    w_sub s2 (id + 1 + len a + len b1) z2 b2 ->
    w_block (MkBlock s1 s2 col op items ty) id last
      ({| bl_color := col; bl_id := dec_of_N id; bl_next_block := if last then (-1)%Z else Z.of_N (id + 1 + len a + len b1 + len b2);
          bl_op_code := op; bl_parameters := ps; bl_spec := spec_text items; bl_sub_stack1 := z1; bl_sub_stack2 := z2;
          bl_type := type_letter ty; bl_type_name := type_names ty |} :: a ++ b1 ++ b2)
with w_args : list (spec_item ablock) -> N -> list str -> list block -> Prop :=
| WNoArgs n : w_args [] n [] []
| WText t r n ps bs : w_args r n ps bs -> w_args (SText t :: r) n ps bs
| WArg x r n p a ps bs : w_arg x n p a -> w_args r (n + len a) ps bs -> w_args (SParam x :: r) n (p :: ps) (a ++ bs)
with w_arg : argument ablock -> N -> str -> list block -> Prop :=
| WPlain x n t : plain_text x t -> w_arg x n t []
| WTruth nm v n : w_arg (ArgBoolean nm (AValue v)) n (lit "@" ++ dec_of_N n) [truth_block v n]
| WInner x b n bs : block_argument x b -> w_block b n true bs -> w_arg x n (lit "@" ++ dec_of_N (n + len bs - 1)) bs
with w_sub : option (list ablock) -> N -> Z -> list block -> Prop :=
| WNoSub n : w_sub None n (-1) []
| WEmptySub n : w_sub (Some []) n (-1) []
| WSub b l n bs : w_stack (b :: l) n bs -> w_sub (Some (b :: l)) n (Z.of_N (n + len bs - 1)) bs
with w_stack : list ablock -> N -> list block -> Prop :=
| WNil n : w_stack [] n []
| WCons b l n x y : w_block b n (match l with [] => true | _ => false end) x -> w_stack l (n + len x) y -> w_stack (b :: l) n (x ++ y).
(** ids start at 10 *)
Definition code_written (l : blocks) (c : list block) : Prop := w_stack l 10 c.

(** ** Views *)
(** the record of a view: the fields that the type of the view determines, those that every view has, and the others as
    they are in [vn_raw] *)
Definition view_record (n : vattrs) (parent : option str) (parent_type : Z) : android_view :=
  let r := vn_raw n in let l := av_layout r in let t := av_text r in let i := av_image r in let v := vn_view n in
  {| av_id := vn_id n; av_parent := parent; av_parent_type := parent_type; av_type := av_type r; av_index := av_index r;
     av_pre_id := av_pre_id r; av_pre_index := av_pre_index r; av_pre_parent := av_pre_parent r; av_pre_parent_type := av_pre_parent_type r;
     av_alpha := av_alpha r; av_scale_x := av_scale_x r; av_scale_y := av_scale_y r; av_translation_x := av_translation_x r; av_translation_y := av_translation_y r;
     av_clickable := av_clickable r; av_enabled := av_enabled r; av_choice_mode := av_choice_mode r; av_ad_unit_id := av_ad_unit_id r;
     av_ad_size := match v with inl (VAdView s) => s | _ => av_ad_size r end;
     av_checked := match v with inl (VCheckBox k _ _ _ _ _) | inl (VSwitch k _ _ _ _ _) => k | _ => av_checked r end;
     av_custom_view := match v with inl (VListView _ c) => c | _ => av_custom_view r end;
     av_divider_height := match v with inl (VListView d _) => d | _ => av_divider_height r end;
     av_first_day_of_week := match v with inl (VCalendarView d) => d | _ => av_first_day_of_week r end;
     av_indeterminate := match v with inl (VProgressBar _ _ b _) => b | _ => av_indeterminate r end;
     av_max := match v with inl (VProgressBar m _ _ _) | inl (VSeekBar m _) => m | _ => av_max r end;
     av_progress := match v with inl (VProgressBar _ p _ _) | inl (VSeekBar _ p) => p | _ => av_progress r end;
     av_progress_style := match v with inl (VProgressBar _ _ _ s) => s | _ => av_progress_style r end;
     av_spinner_mode := match v with inl (VSpinner m) => m | _ => av_spinner_mode r end;
     av_image :=
       {| ic_res_name := match v with inl (VImageView x _) | inl (VFab x) => Some x | _ => ic_res_name i end;
          ic_rotate := ic_rotate i;
          ic_scale_type := match v with inl (VImageView _ s) => s | _ => ic_scale_type i end |};
     av_layout :=
       {| lc_background_color := vn_background_color n; lc_height := vn_height n; lc_width := vn_width n; lc_layout_gravity := vn_layout_gravity n;
          lc_weight := vn_weight n; lc_weight_sum := vn_weight_sum n;
          lc_margin_bottom := sd_bottom (vn_margin n); lc_margin_left := sd_left (vn_margin n); lc_margin_right := sd_right (vn_margin n); lc_margin_top := sd_top (vn_margin n);
          lc_padding_bottom := sd_bottom (vn_padding n); lc_padding_left := sd_left (vn_padding n); lc_padding_right := sd_right (vn_padding n); lc_padding_top := sd_top (vn_padding n);
          lc_gravity := match v with inl (VLinearLayout _ g) | inl (VScrollView _ g) => g | _ => lc_gravity l end;
          lc_orientation := match v with inl (VLinearLayout o _) | inl (VScrollView o _) => o | _ => lc_orientation l end |};
     av_text :=
       {| tc_text := match v with inl (VButton a _ _ _) | inl (VTextView a _ _ _ _ _ _) | inl (VEditText a _ _ _ _ _ _ _ _ _ _) | inl (VCheckBox _ a _ _ _ _) | inl (VSwitch _ a _ _ _ _) => a | _ => tc_text t end;
          tc_text_color := match v with inl (VButton _ c _ _) | inl (VTextView _ c _ _ _ _ _) | inl (VEditText _ c _ _ _ _ _ _ _ _ _) | inl (VCheckBox _ _ c _ _ _) | inl (VSwitch _ _ c _ _ _) => c | _ => tc_text_color t end;
          tc_text_size := match v with inl (VButton _ _ s _) | inl (VTextView _ _ s _ _ _ _) | inl (VEditText _ _ s _ _ _ _ _ _ _ _) | inl (VCheckBox _ _ _ s _ _) | inl (VSwitch _ _ _ s _ _) => s | _ => tc_text_size t end;
          tc_text_type := match v with inl (VButton _ _ _ d) | inl (VTextView _ _ _ _ _ d _) | inl (VEditText _ _ _ _ _ d _ _ _ _ _) | inl (VCheckBox _ _ _ _ _ d) | inl (VSwitch _ _ _ _ _ d) => d | _ => tc_text_type t end;
          tc_text_font := match v with inl (VTextView _ _ _ _ f _ _) | inl (VEditText _ _ _ _ f _ _ _ _ _ _) | inl (VCheckBox _ _ _ _ f _) | inl (VSwitch _ _ _ _ f _) => f | _ => tc_text_font t end;
          tc_single_line := match v with inl (VTextView _ _ _ b _ _ _) | inl (VEditText _ _ _ b _ _ _ _ _ _ _) => b | _ => tc_single_line t end;
          tc_line := match v with inl (VTextView _ _ _ _ _ _ k) | inl (VEditText _ _ _ _ _ _ k _ _ _ _) => k | _ => tc_line t end;
          tc_hint := match v with inl (VEditText _ _ _ _ _ _ _ h _ _ _) => h | _ => tc_hint t end;
          tc_hint_color := match v with inl (VEditText _ _ _ _ _ _ _ _ c _ _) => c | _ => tc_hint_color t end;
          tc_ime_option := match v with inl (VEditText _ _ _ _ _ _ _ _ _ m _) => m | _ => tc_ime_option t end;
          tc_input_type := match v with inl (VEditText _ _ _ _ _ _ _ _ _ _ i) => i | _ => tc_input_type t end |} |}.
(** the number that the children of a view are given as the type of their parent: a count of the kinds of view, 1 left out;
    that of the record if the kind is not known *)
Definition kind_number (n : vattrs) : N :=
  match vn_view n with
  | inl t =>
    match t with
    | VLinearLayout _ _ => 0 | VScrollView _ _ => 2 | VButton _ _ _ _ => 3 | VTextView _ _ _ _ _ _ _ => 4 | VEditText _ _ _ _ _ _ _ _ _ _ _ => 5
    | VImageView _ _ => 6 | VWebView => 7 | VProgressBar _ _ _ _ => 8 | VListView _ _ => 9 | VSpinner _ => 10 | VCheckBox _ _ _ _ _ _ => 11
    | VSwitch _ _ _ _ _ _ => 12 | VSeekBar _ _ => 13 | VCalendarView _ => 14 | VFab _ => 15 | VAdView _ => 16 | VMapView => 17
    end
  | inr _ => av_type (vn_raw n)
  end.
(** a byte as a signed number *)
Definition signed8 (n : N) : Z := if n <? 128 then Z.of_N n else (Z.of_N n - 256)%Z.
(** [views_listed parent t vs out]: the records of the views come first, then for each view in turn what its children are listed as *)
Inductive views_listed : str -> N -> list aview -> list android_view -> Prop :=
| Listed parent t vs below :
    Forall2 (fun v out => views_listed (vn_id (vnode v)) (kind_number (vnode v)) (vchildren v) out) vs below ->
    views_listed parent t vs (map (fun v => view_record (vnode v) (Some parent) (signed8 t)) vs ++ concat below).
Definition layout_written (vs : list aview) (out : list android_view) : Prop := views_listed (lit "root") 0 vs out.
Definition fab_written (v : aview) (x : android_view) : Prop := x = view_record (vnode v) None (-1).

(** ** The logic of a screen *)
Definition component_record (name : str) (k : component_kind) (c : component) : Prop :=
  co_id c = name /\ co_param2 c = [] /\ co_param3 c = [] /\
  (co_type c, co_param1 c) =
  match k with
  | CkIntent => (1, []) | CkSharedPreferences s => (2, s) | CkCalendar => (3, []) | CkVibrator => (4, []) | CkTimer => (5, []) | CkFirebaseDatabase s => (6, s)
  | CkDialog => (7, []) | CkMediaPlayer => (8, []) | CkSoundPool => (9, []) | CkObjectAnimator => (10, []) | CkGyroscope => (11, []) | CkFirebaseAuth => (12, [])
  | CkInterstitialAd => (13, []) | CkFirebaseStorage s => (14, s) | CkCamera => (15, []) | CkFilePicker s => (16, s) | CkRequestNetwork => (17, [])
  | CkTextToSpeech => (18, []) | CkSpeechToText => (19, []) | CkBluetoothConnect => (20, []) | CkLocationManager => (21, [])
  end.
Definition event_record (e : aevent) : event :=
  match ae_type e with
  | EtView id => {| ev_name := ae_name e; ev_type := 1; ev_target_id := id; ev_target_type := 0 |}
  | EtComponent id t => {| ev_name := ae_name e; ev_type := 2; ev_target_id := id; ev_target_type := t |}
  | EtActivity => {| ev_name := ae_name e; ev_type := 3; ev_target_id := []; ev_target_type := 0 |}
  end.
(** the container of an event and that of a more block *)
Definition event_container (e : aevent) (kc : str * list block) : Prop := container_name e (fst kc) /\ code_written (ae_code e) (snd kc).
Definition more_block_written (m : str * amore_block) (kc : str * list block) : Prop := fst kc = fst m ++ lit "_moreBlock" /\ code_written (am_code (snd m)) (snd kc).
Definition logic_written (s : screen) (l : screen_logic) : Prop :=
  sl_name l = sc_java_name s /\ sl_variables l = Some (sc_variables s) /\ sl_list_variables l = Some (sc_list_variables s) /\
  (exists cs, sl_components l = Some cs /\ Forall2 (fun kv c => component_record (fst kv) (snd kv) c) (sc_components s) cs) /\
  (* onCreate is not listed *)
  sl_events l = Some (map event_record (filter (fun e => negb (str_eqb (ae_name e) (lit "onCreate"))) (sc_events s))) /\
  sl_more_blocks l = Some (keep_last (map (fun m => (fst m, {| mb_id := am_name (snd m); mb_spec := spec_text (am_spec (snd m)) |})) (sc_more_blocks s))) /\
  exists es ms, Forall2 event_container (sc_events s) es /\ Forall2 more_block_written (sc_more_blocks s) ms /\ sl_block_containers l = keep_last (es ++ ms).

(** ** The records *)
Definition screen_item (s : screen) : file_item :=
  {| fi_filename := sc_layout_name s; fi_type := FtActivity; fi_keyboard := sc_keyboard s; fi_orientation := sc_orientation s; fi_theme := sc_theme s;
     fi_options := {| ao_toolbar := sc_toolbar s; ao_fullscreen := sc_fullscreen s; ao_drawer := sc_drawer s; ao_fab := sc_fab_enabled s |} |}.
Definition custom_item (c : custom_view) : file_item :=
  {| fi_filename := cv_res_name c; fi_type := FtCustomView; fi_keyboard := KbUnspecified; fi_orientation := OrBoth; fi_theme := ThNone;
     fi_options := {| ao_toolbar := false; ao_fullscreen := false; ao_drawer := false; ao_fab := false |} |}.
(** number, in use, data, the three reserved fields, advertisement units and test devices *)
Definition library_record (t : N) (used : bool) (data r1 r2 r3 : str) (units : list ad_unit) (devices : list str) (x : library_item) : Prop :=
  li_lib_type x = t /\ li_use_yn x = lit (if used then "Y" else "N") /\ li_data x = data /\ li_reserved1 x = r1 /\ li_reserved2 x = r2 /\ li_reserved3 x = r3 /\
  li_ad_units x = units /\ li_test_devices x = devices.
Definition libraries_written (l : libraries) (q : library) : Prop :=
  match lb_firebase l with
  | Some f => library_record 0 true (fb_project_id f) (fb_app_id f) (fb_api_key f) (fb_storage_bucket f) [] [] (l_firebase q)
  | None => library_record 0 false [] [] [] [] [] [] (l_firebase q)
  end /\
  library_record 1 (lb_app_compat l) [] [] [] [] [] [] (l_compat q) /\
  match lb_ad_mob l with
  | Some a => library_record 2 true [] [] [] [] (am_ad_units a) (am_test_devices a) (l_admob q)
  | None => library_record 2 false [] [] [] [] [] [] (l_admob q)
  end /\
  match lb_google_map l with
  | Some g => library_record 3 true (gm_api_key g) [] [] [] [] [] (l_google_map q)
  | None => library_record 3 false [] [] [] [] [] [] (l_google_map q)
  end.
(** the end of a path that does not count: slashes, and dots between them *)
Inductive skipped : str -> Prop :=
| SkEnd : skipped []
| SkSlash r : skipped r -> skipped (47 :: r)
| SkDot r : skipped r -> skipped (47 :: 46 :: r).
(** [n] is the name of the file at [path] *)
Definition path_name (path n : str) : Prop :=
  n <> [] /\ n <> lit "." /\ n <> lit ".." /\ ~ In 47 n /\
  exists before after, path = before ++ n ++ after /\ (before = [] \/ exists a, before = a ++ [47]) /\ skipped after.
Definition file_called (w : res_wrapper) (n : str) : Prop :=
  match w with WPath p => path_name p n | WStringId _ m _ | WU32Id _ m _ => n = m end.
Definition resource_record (kw : str * res_wrapper) (x : resource_item) : Prop :=
  ri_name x = fst kw /\ file_called (snd kw) (ri_full_name x) /\ ri_type x = 1.
Definition project_record (p : sw_project) : project :=
  let m := sp_metadata p in let c := sp_colors p in
  {| pj_id := md_local_id m; pj_app_name := md_name m; pj_workspace_name := md_workspace_name m; pj_package_name := md_package_name m;
     pj_version_code := md_version_code m; pj_version_name := md_version_name m; pj_date_created := md_time_created m;
     pj_custom_icon := match sp_custom_icon p with Some _ => true | None => false end;
     pj_palette := {| pal_primary := cs_primary c; pal_primary_dark := cs_primary_dark c; pal_accent := cs_accent c;
                      pal_control_normal := cs_control_normal c; pal_control_highlight := cs_control_highlight c |};
     pj_sketchware_version := md_sketchware_version m |}.
(** a list of named values, each written as [R] says *)
Definition named_written {A B} (name : A -> str) (R : A -> B -> Prop) (a : A) (kb : str * B) : Prop := fst kb = name a /\ R a (snd kb).
Definition fabs_of (p : sw_project) : list (str * aview) :=
  flat_map (fun s => match sc_fab s with Some v => [(sc_layout_name s, v)] | None => [] end) (sp_screens p).
Definition layouts_of (p : sw_project) : list (str * list aview) :=
  map (fun s => (sc_layout_name s, sc_layout s)) (sp_screens p) ++ map (fun c => (cv_res_name c, cv_layout c)) (sp_custom_views p).
Definition written_as (p : sw_project) (q : parsed_project) : Prop :=
  pp_project q = project_record p /\
  pp_file q = {| f_activities := map screen_item (sp_screens p); f_custom_views := map custom_item (sp_custom_views p) |} /\
  libraries_written (sp_libraries p) (pp_library q) /\
  Forall2 resource_record (re_images (sp_resources p)) (rs_images (pp_resource q)) /\
  Forall2 resource_record (re_sounds (sp_resources p)) (rs_sounds (pp_resource q)) /\
  Forall2 resource_record (re_fonts (sp_resources p)) (rs_fonts (pp_resource q)) /\
  (exists l, Forall2 (named_written fst (fun x => layout_written (snd x))) (layouts_of p) l /\ vw_layouts (pp_view q) = keep_last l) /\
  (exists l, Forall2 (named_written fst (fun x => fab_written (snd x))) (fabs_of p) l /\ vw_fabs (pp_view q) = keep_last l) /\
  (exists l, Forall2 (named_written sc_java_name logic_written) (sp_screens p) l /\ pp_logic q = keep_last l) /\
  (* the files of the resources are never handed on, and the icon only with automatic resources *)
  pp_resource_files q = if sp_automatic p then Some {| rf_custom_icon := sp_custom_icon p; rf_images := []; rf_sounds := []; rf_fonts := [] |} else None.
(** all code of a project *)
Definition codes (p : sw_project) : list blocks :=
  flat_map (fun s => map ae_code (sc_events s) ++ map (fun m => am_code (snd m)) (sc_more_blocks s)) (sp_screens p).
(** every file of the resources of a project *)
Definition resource_wrappers (p : sw_project) : list res_wrapper :=
  map snd (re_images (sp_resources p) ++ re_sounds (sp_resources p) ++ re_fonts (sp_resources p)).
