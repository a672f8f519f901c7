(** All strings of a value, used in the statements of P_Strings.v. Numbers, colours and enumerations have none. *)
From Verif Require Import Base M_Raw M_Project M_File M_Library M_Resource M_View M_Logic M_Parsed A_Block A_View A_Screen A_Project.

Definition maybe {A} (f : A -> list str) (o : option A) : list str := match o with Some x => f x | None => [] end.
(** a string by itself, a list of values, a map from strings *)
Definition alone (s : str) : list str := [s].
Definition named {A} (f : A -> list str) (m : smap A) : list str := flat_map (fun kv => fst kv :: f (snd kv)) m.

(** ** The records of the data files *)
Definition file_texts (f : file) : list str := map fi_filename (f_activities f ++ f_custom_views f).
Definition ad_unit_texts (u : ad_unit) : list str := [au_id u; au_name u].
Definition library_item_texts (x : library_item) : list str :=
  flat_map ad_unit_texts (li_ad_units x) ++ [li_data x; li_reserved1 x; li_reserved2 x; li_reserved3 x] ++ li_test_devices x ++ [li_use_yn x].
Definition library_texts (l : library) : list str :=
  flat_map library_item_texts [l_firebase l; l_compat l; l_admob l; l_google_map l].
Definition resource_item_texts (x : resource_item) : list str := [ri_full_name x; ri_name x].
Definition resource_texts (r : resource) : list str := flat_map resource_item_texts (rs_images r ++ rs_sounds r ++ rs_fonts r).
Definition project_texts (p : project) : list str := [pj_app_name p; pj_workspace_name p; pj_package_name p; pj_version_name p].
Definition raw_view_texts (v : android_view) : list str :=
  [av_ad_size v; av_ad_unit_id v; av_custom_view v; av_id v; av_progress_style v; tc_hint (av_text v); tc_text (av_text v); tc_text_font (av_text v)] ++
  maybe alone (ic_res_name (av_image v)) ++ maybe alone (av_parent v) ++ maybe alone (av_pre_id v) ++ maybe alone (av_pre_parent v).
Definition view_texts (v : view) : list str := named (flat_map raw_view_texts) (vw_layouts v) ++ named raw_view_texts (vw_fabs v).
Definition component_texts (c : component) : list str := [co_id c; co_param1 c; co_param2 c; co_param3 c].
Definition event_texts (e : event) : list str := [ev_name e; ev_target_id e].
Definition more_block_texts (m : more_block) : list str := [mb_id m; mb_spec m].
Definition raw_block_texts (b : block) : list str :=
  [bl_id b; bl_op_code b; bl_spec b; bl_type b; bl_type_name b] ++ bl_parameters b.
Definition variable_texts (v : variable) : list str := [va_name v].
Definition list_variable_texts (v : list_variable) : list str := [lv_name v].
Definition screen_logic_texts (s : screen_logic) : list str :=
  sl_name s :: named (flat_map raw_block_texts) (sl_block_containers s) ++ maybe (named variable_texts) (sl_variables s) ++
  maybe (named list_variable_texts) (sl_list_variables s) ++ maybe (flat_map component_texts) (sl_components s) ++
  maybe (flat_map event_texts) (sl_events s) ++ maybe (named more_block_texts) (sl_more_blocks s).
Definition logic_texts (l : logic) : list str := named screen_logic_texts l.
(** a path is its text *)
Definition wrapper_texts (w : res_wrapper) : list str :=
  match w with WPath p => [p] | WStringId i n _ => [i; n] | WU32Id _ n _ => [n] end.
Definition res_files_texts (f : res_files) : list str :=
  maybe wrapper_texts (rf_custom_icon f) ++ named wrapper_texts (rf_images f) ++ named wrapper_texts (rf_sounds f) ++ named wrapper_texts (rf_fonts f).
Definition parsed_texts (q : parsed_project) : list str :=
  project_texts (pp_project q) ++ file_texts (pp_file q) ++ library_texts (pp_library q) ++ resource_texts (pp_resource q) ++
  view_texts (pp_view q) ++ logic_texts (pp_logic q) ++ maybe res_files_texts (pp_resource_files q).
(** the six data files and the names of the resource files *)
Definition raw_texts (r : raw_project) : list str :=
  [rp_project r; rp_file r; rp_library r; rp_resource r; rp_view r; rp_logic r] ++ maybe (flat_map wrapper_texts) (rp_resource_files r).

(** ** The API *)
Definition block_type_texts (t : block_type) : list str :=
  match t with TArgument (RView n) | TArgument (RComponent n) => [n] | _ => [] end.
Section Items.
  Context {B : Type} (f : B -> list str).
  Definition value_texts {T} (g : T -> list str) (v : arg_value B T) : list str :=
    match v with AValue t => g t | ABlock b => f b | _ => [] end.
  Definition item_texts (i : spec_item B) : list str :=
    match i with
    | SText s => [s]
    | SParam (ArgString n v) => maybe alone n ++ value_texts alone v
    | SParam (ArgNumber n v) => maybe alone n ++ value_texts (fun _ => []) v
    | SParam (ArgBoolean n v) => maybe alone n ++ value_texts (fun _ => []) v
    | SParam (ArgMenu n v) => n :: value_texts alone v
    end.
End Items.
Fixpoint block_texts (b : ablock) : list str :=
  match b with
  | MkBlock s1 s2 _ op items ty =>
    op :: block_type_texts ty ++ flat_map (item_texts block_texts) items ++
    match s1 with Some l => flat_map block_texts l | None => [] end ++ match s2 with Some l => flat_map block_texts l | None => [] end
  end.
Definition view_type_texts (t : view_type) : list str :=
  match t with
  | VButton a _ _ _ => [a]
  | VTextView a _ _ _ f _ _ => [a; f]
  | VEditText a _ _ _ f _ _ h _ _ _ => [a; f; h]
  | VImageView r _ => [r]
  | VProgressBar _ _ _ s => [s]
  | VListView _ c => [c]
  | VCheckBox _ a _ _ f _ | VSwitch _ a _ _ f _ => [a; f]
  | VFab r => [r]
  | VAdView s => [s]
  | _ => []
  end.
Definition view_type_error_texts (e : view_type_error) : list str :=
  match e with UnknownViewType _ i | ResNameNotPresent i => [i] end.
Definition node_texts (n : vattrs) : list str :=
  vn_id n :: match vn_view n with inl t => view_type_texts t | inr e => view_type_error_texts e end ++ raw_view_texts (vn_raw n).
Fixpoint aview_texts (v : aview) : list str := match v with VNode n ch => node_texts n ++ flat_map aview_texts ch end.
Definition component_kind_texts (k : component_kind) : list str :=
  match k with CkSharedPreferences s | CkFirebaseDatabase s | CkFirebaseStorage s | CkFilePicker s => [s] | _ => [] end.
Definition event_type_texts (t : event_type) : list str :=
  match t with EtView i | EtComponent i _ => [i] | EtActivity => [] end.
Definition aevent_texts (e : aevent) : list str := ae_name e :: event_type_texts (ae_type e) ++ flat_map block_texts (ae_code e).
Definition amore_block_texts (m : amore_block) : list str :=
  am_name m :: flat_map (item_texts block_texts) (am_spec m) ++ flat_map block_texts (am_code m).
Definition screen_texts (s : screen) : list str :=
  [sc_layout_name s; sc_java_name s] ++ flat_map aview_texts (sc_layout s) ++ named variable_texts (sc_variables s) ++
  named list_variable_texts (sc_list_variables s) ++ named amore_block_texts (sc_more_blocks s) ++
  named component_kind_texts (sc_components s) ++ flat_map aevent_texts (sc_events s) ++ maybe aview_texts (sc_fab s).
Definition custom_view_texts (c : custom_view) : list str := cv_res_name c :: flat_map aview_texts (cv_layout c).
Definition firebase_texts (f : firebase) : list str := [fb_project_id f; fb_app_id f; fb_api_key f; fb_storage_bucket f].
Definition ad_mob_texts (a : ad_mob) : list str := flat_map ad_unit_texts (am_ad_units a) ++ am_test_devices a.
Definition google_map_texts (g : google_map) : list str := [gm_api_key g].
Definition libraries_texts (l : libraries) : list str :=
  maybe firebase_texts (lb_firebase l) ++ maybe ad_mob_texts (lb_ad_mob l) ++ maybe google_map_texts (lb_google_map l).
Definition resources_texts (r : resources) : list str :=
  named wrapper_texts (re_images r) ++ named wrapper_texts (re_sounds r) ++ named wrapper_texts (re_fonts r).
Definition metadata_texts (m : metadata) : list str := [md_name m; md_workspace_name m; md_package_name m; md_version_name m].
Definition sw_texts (p : sw_project) : list str :=
  maybe wrapper_texts (sp_custom_icon p) ++ metadata_texts (sp_metadata p) ++ flat_map screen_texts (sp_screens p) ++
  flat_map custom_view_texts (sp_custom_views p) ++ libraries_texts (sp_libraries p) ++ resources_texts (sp_resources p).
