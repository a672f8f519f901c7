(** Model of /repo/src/api/mod.rs. *)
From Verif Require Import Base M_Color M_Raw M_Project M_File M_Library M_Resource M_View M_Logic M_Parsed A_Block A_View A_Screen.

(** ** Records *)
(** mod.rs L30-52 *)
Record metadata := {
  md_local_id : N; md_name : str; md_workspace_name : str; md_package_name : str; md_time_created : N;
  md_sketchware_version : N; md_version_name : str; md_version_code : N
}.
(** mod.rs L55-62 *)
Record colors := {
  cs_primary : color; cs_primary_dark : color; cs_accent : color; cs_control_normal : color; cs_control_highlight : color
}.
(** mod.rs L74-80, L82-86, L88-91, L65-71 *)
Record firebase := { fb_project_id : str; fb_app_id : str; fb_api_key : str; fb_storage_bucket : str }.
Record ad_mob := { am_ad_units : list ad_unit; am_test_devices : list str }.
Record google_map := { gm_api_key : str }.
Record libraries := {
  lb_app_compat : bool; lb_firebase : option firebase; lb_ad_mob : option ad_mob; lb_google_map : option google_map
}.
(** mod.rs L95-99 *)
Record custom_view := { cv_res_name : str; cv_layout : list aview }.
(** mod.rs L102-107; a [ResourceId] (L121-122) is its text *)
Record resources := { re_images : smap res_wrapper; re_sounds : smap res_wrapper; re_fonts : smap res_wrapper }.
(** mod.rs L237-248 *)
Record sw_project := {
  sp_custom_icon : option res_wrapper; sp_metadata : metadata; sp_colors : colors; sp_screens : list screen;
  sp_custom_views : list custom_view; sp_libraries : libraries; sp_resources : resources; sp_automatic : bool
}.
(** mod.rs L252-264 *)
Definition sw_new (m : metadata) (c : colors) (ss : list screen) (cvs : list custom_view) (l : libraries) (r : resources) : sw_project :=
  {| sp_custom_icon := None; sp_metadata := m; sp_colors := c; sp_screens := ss; sp_custom_views := cvs;
     sp_libraries := l; sp_resources := r; sp_automatic := false |}.

(** ** Resources *)
(** mod.rs L111-117 *)
Definition resources_empty : resources := {| re_images := []; re_sounds := []; re_fonts := [] |}.
(** mod.rs L126-140 *)
Definition get_resource (id : str) (r : resources) : option (res_wrapper * res_type) :=
  match sget id (re_images r) with
  | Some w => Some (w, RImage)
  | None =>
    match sget id (re_sounds r) with
    | Some w => Some (w, RSound)
    | None =>
      match sget id (re_fonts r) with
      | Some w => Some (w, RFont)
      | None => None
      end
    end
  end.
(** mod.rs L143-157: the answer and the resources afterwards *)
Definition remove_resource (id : str) (r : resources) : option (res_wrapper * res_type) * resources :=
  match sget id (re_images r) with
  | Some w => (Some (w, RImage), {| re_images := sremove id (re_images r); re_sounds := re_sounds r; re_fonts := re_fonts r |})
  | None =>
    match sget id (re_sounds r) with
    | Some w => (Some (w, RSound), {| re_images := re_images r; re_sounds := sremove id (re_sounds r); re_fonts := re_fonts r |})
    | None =>
      match sget id (re_fonts r) with
      | Some w => (Some (w, RFont), {| re_images := re_images r; re_sounds := re_sounds r; re_fonts := sremove id (re_fonts r) |})
      | None => (None, r)
      end
    end
  end.
(** mod.rs L227-234 *)
Inductive addition_error := IdTaken (id : str) | AddFileDoesntExist (path : str).
(** mod.rs L190-205 *)
Definition set_res_type (t : res_type) (w : res_wrapper) : res_wrapper :=
  match w with
  | WPath p => WPath p
  | WStringId i n _ => WStringId i n t
  | WU32Id i n _ => WU32Id i n t
  end.
(** mod.rs L170-220; the resources afterwards (they are not touched on an error) *)
Definition put_resource (exists_ : str -> bool) (id : str) (file : res_wrapper) (t : res_type) (r : resources)
  : res addition_error resources :=
  match t with
  | RCustomIcon => Panic
  | _ =>
    let* _ := (match file with
               | WPath p => if exists_ p then Ok tt else Err (AddFileDoesntExist p)
               | _ => Ok tt
               end) in
    let file := set_res_type t file in
    if smem id (re_images r) then Err (IdTaken id)
    else Ok (match t with
             | RImage => {| re_images := sinsert id file (re_images r); re_sounds := re_sounds r; re_fonts := re_fonts r |}
             | RSound => {| re_images := re_images r; re_sounds := sinsert id file (re_sounds r); re_fonts := re_fonts r |}
             | RFont => {| re_images := re_images r; re_sounds := re_sounds r; re_fonts := sinsert id file (re_fonts r) |}
             | RCustomIcon => r
             end)
  end.

(** ** Names *)
(** [char::to_ascii_uppercase] *)
Definition to_ascii_uppercase (c : char) : char := if (97 <=? c) && (c <=? 122) then c - 32 else c.
Definition UNDERSCORE : char := 95.
(** mod.rs L274-287, the [filter_map] with the captured [capitalize] *)
Fixpoint logic_chars (capitalize : bool) (s : str) : str :=
  match s with
  | [] => []
  | c :: r =>
    if c =? UNDERSCORE then logic_chars true r
    else if capitalize then to_ascii_uppercase c :: logic_chars false r
    else c :: logic_chars false r
  end.
(** mod.rs L269-289 *)
Definition view_name_to_logic (s : str) : str := logic_chars true s ++ lit "Activity".

(** ** From a parsed project *)
(** mod.rs L452-485 *)
Inductive project_error :=
| XScreen (java_name layout_name : str) (e : screen_error)
| XMissingCustomViewLayout (id : str)
| XCustomViewLayout (id : str) (e : layout_error)
| XInvalidUseYn (library_name value : str)
| XMissingResourceFile (res_name res_full_name : str) (t : res_type).
(** mod.rs L307-318 *)
Definition library_conv {A} (name : str) (item : library_item) (a : A) : res project_error (option A) :=
  if str_eqb (li_use_yn item) (lit "Y") then Ok (Some a)
  else if str_eqb (li_use_yn item) (lit "N") then Ok None
  else Err (XInvalidUseYn name (li_use_yn item)).
(** mod.rs L320-340. [rnd i] is the i-th number drawn ([rand::random], parser/mod.rs L341-347); nothing is assumed
    about it *)
Fixpoint take_resources (t : res_type) (rnd : nat -> N) (i : nat) (l : list resource_item) (rf : option (smap res_wrapper))
  : res project_error (list (str * res_wrapper)) :=
  match l with
  | [] => Ok []
  | it :: r =>
    let* w := (match rf with
               | Some m => ok_or (XMissingResourceFile (ri_name it) (ri_full_name it) t) (sget (ri_full_name it) m)
               | None => Ok (WU32Id (rnd i) (ri_full_name it) t)
               end) in
    let* ws := take_resources t rnd (S i) r (match rf with Some m => Some (sremove (ri_full_name it) m) | None => None end) in
    Ok ((ri_name it, w) :: ws)
  end.
(** mod.rs L343-377: the screens and the layouts that are left; the maps are consumed from activity to activity *)
Fixpoint take_screens (l : list file_item) (lays : smap layout) (lgs : logic) (fabs : smap android_view)
  : res project_error (list screen * smap layout) :=
  match l with
  | [] => Ok ([], lays)
  | fe :: r =>
    let name := fi_filename fe in
    let lay := or_empty (sget name lays) in
    let lg := match sget (view_name_to_logic name) lgs with Some x => x | None => screen_new_empty name end in
    let fab := option_map view_from (sget name fabs) in
    let* s := map_err (XScreen (view_name_to_logic name) name)
                (screen_from_parsed name (sl_name lg) fe lay lg fab) in
    let* (ss, lays') := take_screens r (sremove name lays) (sremove (view_name_to_logic name) lgs) (sremove name fabs) in
    Ok (s :: ss, lays')
  end.
(** mod.rs L380-399 *)
Fixpoint take_custom_views (l : list file_item) (lays : smap layout) : res project_error (list custom_view) :=
  match l with
  | [] => Ok []
  | fe :: r =>
    let name := fi_filename fe in
    let* lay := ok_or (XMissingCustomViewLayout name) (sget name lays) in
    let* views := map_err (XCustomViewLayout name) (parse_raw_layout lay) in
    let* cs := take_custom_views r (sremove name lays) in
    Ok ({| cv_res_name := name; cv_layout := views |} :: cs)
  end.
(** mod.rs L303-450; the fields are evaluated in this order *)
Definition project_try_from (rnd : res_type -> nat -> N) (v : parsed_project) : res project_error sw_project :=
  let p := pp_project v in
  let lib := pp_library v in
  let rf := pp_resource_files v in
  let* (screens, lays) := take_screens (f_activities (pp_file v)) (vw_layouts (pp_view v)) (pp_logic v) (vw_fabs (pp_view v)) in
  let* cvs := take_custom_views (f_custom_views (pp_file v)) lays in
  let* fb := library_conv (lit "firebase") (l_firebase lib)
    {| fb_project_id := li_data (l_firebase lib); fb_app_id := li_reserved1 (l_firebase lib);
       fb_api_key := li_reserved2 (l_firebase lib); fb_storage_bucket := li_reserved3 (l_firebase lib) |} in
  let* am := library_conv (lit "admob") (l_admob lib)
    {| am_ad_units := li_ad_units (l_admob lib); am_test_devices := li_test_devices (l_admob lib) |} in
  let* gm := library_conv (lit "google map") (l_google_map lib) {| gm_api_key := li_data (l_google_map lib) |} in
  let* im := take_resources RImage (rnd RImage) 0 (rs_images (pp_resource v)) (option_map rf_images rf) in
  let* so := take_resources RSound (rnd RSound) 0 (rs_sounds (pp_resource v)) (option_map rf_sounds rf) in
  let* fo := take_resources RFont (rnd RFont) 0 (rs_fonts (pp_resource v)) (option_map rf_fonts rf) in
  Ok {| sp_custom_icon := match rf with Some f => rf_custom_icon f | None => None end;
        sp_metadata :=
          {| md_local_id := pj_id p; md_name := pj_app_name p; md_workspace_name := pj_workspace_name p;
             md_package_name := pj_package_name p; md_time_created := pj_date_created p;
             md_sketchware_version := pj_sketchware_version p; md_version_name := pj_version_name p;
             md_version_code := pj_version_code p |};
        sp_colors :=
          {| cs_primary := pal_primary (pj_palette p); cs_primary_dark := pal_primary_dark (pj_palette p);
             cs_accent := pal_accent (pj_palette p); cs_control_normal := pal_control_normal (pj_palette p);
             cs_control_highlight := pal_control_highlight (pj_palette p) |};
        sp_screens := screens; sp_custom_views := cvs;
        sp_libraries :=
          {| lb_app_compat := str_eqb (li_use_yn (l_compat lib)) (lit "Y"); lb_firebase := fb; lb_ad_mob := am;
             lb_google_map := gm |};
        sp_resources := {| re_images := scollect im; re_sounds := scollect so; re_fonts := scollect fo |};
        sp_automatic := match rf with Some _ => false | None => true end |}.

(** ** Back to a parsed project *)
(** mod.rs L503-521: the items, and the files by full name *)
Fixpoint put_resources (automatic : bool) (l : smap res_wrapper) (files : smap res_wrapper)
  : res unit (list resource_item * smap res_wrapper) :=
  match l with
  | [] => Ok ([], files)
  | (id, w) :: r =>
    let* full_name := get_full_name w in
    let* (is, files') := put_resources automatic r (if automatic then files else sinsert full_name w files) in
    Ok ({| ri_full_name := full_name; ri_name := id; ri_type := 1 |} :: is, files')
  end.
(** mod.rs L525-538 *)
Definition activity_of (s : screen) : file_item :=
  {| fi_filename := sc_layout_name s; fi_type := FtActivity; fi_keyboard := sc_keyboard s;
     fi_options := {| ao_toolbar := sc_toolbar s; ao_fullscreen := sc_fullscreen s; ao_drawer := sc_drawer s;
                      ao_fab := sc_fab_enabled s |};
     fi_orientation := sc_orientation s; fi_theme := sc_theme s |}.
(** mod.rs L539-552 *)
Definition custom_view_item (c : custom_view) : file_item :=
  {| fi_filename := cv_res_name c; fi_type := FtCustomView; fi_keyboard := KbUnspecified;
     fi_options := {| ao_toolbar := false; ao_fullscreen := false; ao_drawer := false; ao_fab := false |};
     fi_orientation := OrBoth; fi_theme := ThNone |}.
(** mod.rs L622-627: the first flattened view is that of the fab itself; [remove(0)] of an empty list would panic *)
Definition fab_of (v : aview) : res unit android_view :=
  let* x := unwrap (hd_error (flatten_views [v] None None)) in
  Ok (set_av_parent_type (-1)%Z (set_av_parent None x)).
(** mod.rs L620-645 *)
Fixpoint put_screens (l : list screen) (lgs : logic) (lays : smap layout) (fabs : smap android_view)
  : res unit (logic * smap layout * smap android_view) :=
  match l with
  | [] => Ok (lgs, lays, fabs)
  | s :: r =>
    let* fabs' := (match sc_fab s with
                   | Some v => let* x := fab_of v in Ok (sinsert (sc_layout_name s) x fabs)
                   | None => Ok fabs
                   end) in
    let* lg := screen_logic_of s in
    put_screens r (sinsert (sc_java_name s) lg lgs)
      (sinsert (sc_layout_name s) (flatten_views (sc_layout s) None None) lays) fabs'
  end.
(** mod.rs L648-653 *)
Definition put_custom_views (l : list custom_view) (lays : smap layout) : smap layout :=
  fold_left (fun m c => sinsert (cv_res_name c) (flatten_views (cv_layout c) None None) m) l lays.
(** mod.rs L678-755: the library items; the empty one has [use_yn] "N" *)
Definition no_library (t : N) : library_item :=
  {| li_ad_units := []; li_data := []; li_lib_type := t; li_reserved1 := []; li_reserved2 := []; li_reserved3 := [];
     li_test_devices := []; li_use_yn := lit "N" |}.
Definition library_of (l : libraries) : library :=
  {| l_firebase :=
       match lb_firebase l with
       | Some v => {| li_ad_units := []; li_data := fb_project_id v; li_lib_type := 0; li_reserved1 := fb_app_id v;
                      li_reserved2 := fb_api_key v; li_reserved3 := fb_storage_bucket v; li_test_devices := []; li_use_yn := lit "Y" |}
       | None => no_library 0
       end;
     l_compat :=
       {| li_ad_units := []; li_data := []; li_lib_type := 1; li_reserved1 := []; li_reserved2 := []; li_reserved3 := [];
          li_test_devices := []; li_use_yn := if lb_app_compat l then lit "Y" else lit "N" |};
     l_admob :=
       match lb_ad_mob l with
       | Some v => {| li_ad_units := am_ad_units v; li_data := []; li_lib_type := 2; li_reserved1 := []; li_reserved2 := [];
                      li_reserved3 := []; li_test_devices := am_test_devices v; li_use_yn := lit "Y" |}
       | None => no_library 2
       end;
     l_google_map :=
       match lb_google_map l with
       | Some v => {| li_ad_units := []; li_data := gm_api_key v; li_lib_type := 3; li_reserved1 := []; li_reserved2 := [];
                      li_reserved3 := []; li_test_devices := []; li_use_yn := lit "Y" |}
       | None => no_library 3
       end |}.
(** mod.rs L659-677 *)
Definition project_of (v : sw_project) : project :=
  let m := sp_metadata v in
  let c := sp_colors v in
  {| pj_id := md_local_id m; pj_app_name := md_name m; pj_workspace_name := md_workspace_name m;
     pj_package_name := md_package_name m; pj_version_code := md_version_code m; pj_version_name := md_version_name m;
     pj_date_created := md_time_created m;
     pj_custom_icon := match sp_custom_icon v with Some _ => true | None => false end;
     pj_palette := {| pal_primary := cs_primary c; pal_primary_dark := cs_primary_dark c; pal_accent := cs_accent c;
                      pal_control_normal := cs_control_normal c; pal_control_highlight := cs_control_highlight c |};
     pj_sketchware_version := md_sketchware_version m |}.
(** mod.rs L496-773; there is no error, but [Blocks::into] and [get_full_name] may panic *)
Definition project_into (v : sw_project) : res unit parsed_project :=
  let* (lgs, lays, fabs) := put_screens (sp_screens v) [] [] [] in
  let* (im, imf) := put_resources (sp_automatic v) (re_images (sp_resources v)) [] in
  let* (so, sof) := put_resources (sp_automatic v) (re_sounds (sp_resources v)) [] in
  let* (fo, fof) := put_resources (sp_automatic v) (re_fonts (sp_resources v)) [] in
  Ok {| pp_project := project_of v;
        pp_file := {| f_activities := map activity_of (sp_screens v); f_custom_views := map custom_view_item (sp_custom_views v) |};
        pp_library := library_of (sp_libraries v);
        pp_resource := {| rs_images := im; rs_sounds := so; rs_fonts := fo |};
        pp_view := {| vw_layouts := put_custom_views (sp_custom_views v) lays; vw_fabs := fabs |};
        pp_logic := lgs;
        pp_resource_files :=
          if sp_automatic v
          then Some {| rf_custom_icon := sp_custom_icon v; rf_images := imf; rf_sounds := sof; rf_fonts := fof |}
          else None |}.
(** mod.rs L487-494 *)
Definition project_into_raw (v : sw_project) (r : raw_project) : Prop :=
  exists p, project_into v = Ok p /\ into_raw p r.
