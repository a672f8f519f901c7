(** What loading a project means, used in the statements of P_Loading.v. The program consumes maps and lists while it
    goes on; here every part is described by what the raw project says about it and by the parts before it. *)
From Verif Require Import Base M_Color M_Raw M_Project M_File M_Library M_Resource M_View M_Logic M_Parsed A_Block A_View A_Screen A_Project SpecScreen.

(** ** One after the other *)
(** a failure, at whatever type *)
Definition fails_as {E A B} (bad : res E A) (r : res E B) : Prop :=
  match bad with Ok _ => False | Err e => r = Err e | Panic => r = Panic end.
(** [step before x y]: [y] is the outcome of [x], which comes after [before]. All outcomes in order, or the first failure *)
Definition in_order {X E A} (step : list X -> X -> res E A -> Prop) (l : list X) (r : res E (list A)) : Prop :=
  (exists ys, r = Ok ys /\ length ys = length l /\
     forall before x after, l = before ++ x :: after -> exists y, nth_error ys (length before) = Some y /\ step before x (Ok y)) \/
  (exists before x after bad, l = before ++ x :: after /\ step before x bad /\ fails_as bad r /\
     forall b z a, before = b ++ z :: a -> exists y, step b z (Ok y)).
(** [r] goes on with the result of the part [p], or fails as it does *)
Definition after {E A B} (p : res E A) (next : A -> Prop) (r : res E B) : Prop :=
  match p with Ok a => next a | Err e => r = Err e | Panic => r = Panic end.

(** ** Screens *)
(** the outcome of reading the code stored under [k], if the names in [used] have been used up *)
Definition code_under (bc : smap block_container) (used : str -> Prop) (k : str) (r : res conv_error blocks) : Prop :=
  (used k /\ r = Ok []) \/ (~ used k /\ sget k bc = None /\ r = Ok []) \/
  (~ used k /\ exists c, sget k bc = Some c /\ r = blocks_try_from c).
Definition more_block_key (id : str) : str := id ++ lit "_moreBlock".
Definition used_by_more_blocks (l : smap more_block) (k : str) : Prop := exists id, In id (map fst l) /\ k = more_block_key id.
Definition used_by_events (l : list event) (k : str) : Prop := exists raw e, In raw l /\ stands_for raw e /\ container_name e k.
Definition more_block_step (bc : smap block_container) (before : smap more_block) (x : str * more_block)
    (r : res screen_error (str * amore_block)) : Prop :=
  let id := fst x in
  after (map_err (SeMoreBlockSpec id) (parse_wo_params (mb_spec (snd x)))) (fun spec =>
    exists code, code_under bc (used_by_more_blocks before) (more_block_key id) code /\
      after (map_err (SeBlocks (more_block_key id)) code) (fun c => r = Ok (id, {| am_name := id; am_spec := spec; am_code := c |})) r) r.
Definition component_step (_ : list component) (c : component) (r : res screen_error (str * component_kind)) : Prop :=
  match from_parser_component c with
  | Ok k => r = Ok (co_id c, k)
  | _ => r = Err (SeUnknownComponent {| uc_type := co_type c; uc_id := co_id c |})
  end.
Definition event_step (bc : smap block_container) (mbs : smap more_block) (before : list event) (raw : event)
    (r : res screen_error aevent) : Prop :=
  ((~ exists e, stands_for raw e) /\ r = Err (SeUnknownEvent {| ue_name := ev_name raw; ue_type := ev_type raw |})) \/
  (exists e k code, stands_for raw e /\ container_name e k /\
     code_under bc (fun n => used_by_more_blocks mbs n \/ used_by_events before n) k code /\
     after (map_err (SeBlocks k) code) (fun c => r = Ok {| ae_name := ae_name e; ae_type := ae_type e; ae_code := c |}) r).
(** the raw events of a logic section: one for [onCreate] is put in front if its container is there *)
Definition event_list (le : screen_logic) (l : list event) : Prop :=
  let has := In (lit "onCreate_initializeLogic") (map fst (sl_block_containers le)) in
  let pool := match sl_events le with Some es => es | None => [] end in
  (has /\ l = {| ev_name := lit "onCreate"; ev_type := 3; ev_target_id := lit "onCreate"; ev_target_type := 0 |} :: pool) \/
  (~ has /\ l = pool).
Definition screen_reads (ln jn : str) (fe : file_item) (ve : layout) (le : screen_logic) (fab : option aview)
    (r : res screen_error screen) : Prop :=
  let bc := sl_block_containers le in
  let mbs := or_empty (sl_more_blocks le) in
  after (map_err SeLayout (parse_raw_layout ve)) (fun views =>
  exists ms, in_order (more_block_step bc) mbs ms /\ after ms (fun ms =>
  exists cs, in_order component_step (or_empty (sl_components le)) cs /\ after cs (fun cs =>
  exists raw es, event_list le raw /\ in_order (event_step bc mbs) raw es /\ after es (fun es =>
  r = Ok {| sc_layout_name := ln; sc_java_name := jn; sc_layout := views;
            sc_variables := or_empty (sl_variables le); sc_list_variables := or_empty (sl_list_variables le);
            sc_more_blocks := scollect ms; sc_components := scollect cs; sc_events := es; sc_fab := fab;
            sc_fullscreen := ao_fullscreen (fi_options fe); sc_toolbar := ao_toolbar (fi_options fe);
            sc_drawer := ao_drawer (fi_options fe); sc_fab_enabled := ao_fab (fi_options fe);
            sc_orientation := fi_orientation fe; sc_theme := fi_theme fe; sc_keyboard := fi_keyboard fe |}) r) r) r) r.

(** ** Projects *)
(** what is found under [k] if the names in [used] have been used up *)
Definition unused {V} (m : smap V) (used : list str) (k : str) (o : option V) : Prop :=
  (In k used /\ o = None) \/ (~ In k used /\ o = sget k m).
(** the layout, the logic section and the floating button of an activity that comes after the activities [before] *)
Definition screen_parts (v : parsed_project) (before : list file_item) (fe : file_item) (ve : layout) (le : screen_logic)
    (fab : option aview) : Prop :=
  let name := fi_filename fe in
  let names := map fi_filename before in
  (exists o, unused (vw_layouts (pp_view v)) names name o /\ ve = or_empty o) /\
  (exists o, unused (pp_logic v) (map view_name_to_logic names) (view_name_to_logic name) o /\
     le = match o with Some x => x | None => screen_new_empty name end) /\
  (exists o, unused (vw_fabs (pp_view v)) names name o /\ fab = option_map view_from o).
Definition screen_step (v : parsed_project) (before : list file_item) (fe : file_item) (r : res project_error screen) : Prop :=
  exists ve le fab s, screen_parts v before fe ve le fab /\
    screen_reads (fi_filename fe) (sl_name le) fe ve le fab s /\
    r = map_err (XScreen (view_name_to_logic (fi_filename fe)) (fi_filename fe)) s.
Definition custom_view_step (v : parsed_project) (before : list file_item) (fe : file_item) (r : res project_error custom_view) : Prop :=
  let name := fi_filename fe in
  exists o, unused (vw_layouts (pp_view v)) (map fi_filename (f_activities (pp_file v) ++ before)) name o /\
    match o with
    | None => r = Err (XMissingCustomViewLayout name)
    | Some lay => after (map_err (XCustomViewLayout name) (parse_raw_layout lay))
                    (fun views => r = Ok {| cv_res_name := name; cv_layout := views |}) r
    end.
(** a library is used if its flag is Y, not used if it is N *)
Definition library_reads {A} (name : str) (item : library_item) (a : A) (r : res project_error (option A)) : Prop :=
  let yn := li_use_yn item in
  (yn = lit "Y" /\ r = Ok (Some a)) \/ (yn = lit "N" /\ r = Ok None) \/
  (yn <> lit "Y" /\ yn <> lit "N" /\ r = Err (XInvalidUseYn name yn)).
(** with files, the file of that name, which is then used up; without, a number from the random source *)
Definition resource_step (t : res_type) (rnd : nat -> N) (files : option (smap res_wrapper)) (before : list resource_item)
    (it : resource_item) (r : res project_error (str * res_wrapper)) : Prop :=
  match files with
  | None => r = Ok (ri_name it, WU32Id (rnd (length before)) (ri_full_name it) t)
  | Some m => exists o, unused m (map ri_full_name before) (ri_full_name it) o /\
                r = match o with
                    | Some w => Ok (ri_name it, w)
                    | None => Err (XMissingResourceFile (ri_name it) (ri_full_name it) t)
                    end
  end.
(** the parts in the order in which their failures are reported *)
Definition project_reads (rnd : res_type -> nat -> N) (v : parsed_project) (r : res project_error sw_project) : Prop :=
  let p := pp_project v in
  let lib := pp_library v in
  let rf := pp_resource_files v in
  exists ss, in_order (screen_step v) (f_activities (pp_file v)) ss /\ after ss (fun ss =>
  exists cvs, in_order (custom_view_step v) (f_custom_views (pp_file v)) cvs /\ after cvs (fun cvs =>
  exists fb, library_reads (lit "firebase") (l_firebase lib)
    {| fb_project_id := li_data (l_firebase lib); fb_app_id := li_reserved1 (l_firebase lib);
       fb_api_key := li_reserved2 (l_firebase lib); fb_storage_bucket := li_reserved3 (l_firebase lib) |} fb /\ after fb (fun fb =>
  exists am, library_reads (lit "admob") (l_admob lib)
    {| am_ad_units := li_ad_units (l_admob lib); am_test_devices := li_test_devices (l_admob lib) |} am /\ after am (fun am =>
  exists gm, library_reads (lit "google map") (l_google_map lib) {| gm_api_key := li_data (l_google_map lib) |} gm /\ after gm (fun gm =>
  exists im, in_order (resource_step RImage (rnd RImage) (option_map rf_images rf)) (rs_images (pp_resource v)) im /\ after im (fun im =>
  exists so, in_order (resource_step RSound (rnd RSound) (option_map rf_sounds rf)) (rs_sounds (pp_resource v)) so /\ after so (fun so =>
  exists fo, in_order (resource_step RFont (rnd RFont) (option_map rf_fonts rf)) (rs_fonts (pp_resource v)) fo /\ after fo (fun fo =>
  exists compat, (compat = true <-> li_use_yn (l_compat lib) = lit "Y") /\
  r = Ok {| sp_custom_icon := match rf with Some f => rf_custom_icon f | None => None end;
            sp_metadata :=
              {| md_local_id := pj_id p; md_name := pj_app_name p; md_workspace_name := pj_workspace_name p;
                 md_package_name := pj_package_name p; md_time_created := pj_date_created p;
                 md_sketchware_version := pj_sketchware_version p; md_version_name := pj_version_name p;
                 md_version_code := pj_version_code p |};
            sp_colors :=
              {| cs_primary := pal_primary (pj_palette p); cs_primary_dark := pal_primary_dark (pj_palette p);
                 cs_accent := pal_accent (pj_palette p); cs_control_normal := pal_control_normal (pj_palette p);
                 cs_control_highlight := pal_control_highlight (pj_palette p) |};
            sp_screens := ss; sp_custom_views := cvs;
            sp_libraries := {| lb_app_compat := compat; lb_firebase := fb; lb_ad_mob := am; lb_google_map := gm |};
            sp_resources := {| re_images := scollect im; re_sounds := scollect so; re_fonts := scollect fo |};
            sp_automatic := match rf with Some _ => false | None => true end |}) r) r) r) r) r) r) r) r.

(** ** Raw projects *)
(** the first failing part in this order: the six files, then the resource files *)
Definition raw_reads (mv : bool) (exists_ : str -> bool) (w : raw_project) (r : res parse_error parsed_project) : Prop :=
  after (map_err PeProject (project_parse (rp_project w))) (fun p =>
  after (map_err PeFile (file_parse (rp_file w))) (fun f =>
  after (map_err PeLibrary (library_parse (rp_library w))) (fun l =>
  after (map_err PeResource (resource_parse (rp_resource w))) (fun s =>
  after (map_err PeView (view_parse (rp_view w))) (fun v =>
  after (map_err PeLogic (logic_parse mv (rp_logic w))) (fun g =>
  match rp_resource_files w with
  | None => r = Ok {| pp_project := p; pp_file := f; pp_library := l; pp_resource := s; pp_view := v; pp_logic := g; pp_resource_files := None |}
  | Some ws => after (map_err PeResourceFiles (res_files_try_from exists_ ws)) (fun rf =>
      r = Ok {| pp_project := p; pp_file := f; pp_library := l; pp_resource := s; pp_view := v; pp_logic := g; pp_resource_files := Some rf |}) r
  end) r) r) r) r) r) r.
