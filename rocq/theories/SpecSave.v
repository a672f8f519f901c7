(** Which projects can be saved and loaded again, used in the statements of P_Save.v. The conditions are about the project in
    the API; the names of pools, layouts and containers are limited as in C20, C21 and C22. *)
From Verif Require Import Base M_Color M_Date M_Raw M_Project M_Resource M_View M_Logic M_Parsed A_Block A_View A_Screen A_Project
  SpecBlock SpecView SpecScreen SpecProject ResFilesProofs P_Project P_View P_Logic.

(** ** What fits *)
(** a name that a section header of the view file can hold *)
Definition file_name (n : str) : Prop := ~ In 10 n /\ ~ In 46 n.
(** the raw views of a layout and of a floating button have fields within their types, and finite floats *)
Definition views_fit (l : list aview) : Prop := forall x, In x (flatten_views l None None) -> well_typed x /\ finite_floats x.
Definition button_fits (v : aview) : Prop := forall x, fab_of v = Ok x -> well_typed x /\ finite_floats x.
(** the raw blocks have colours and numbers within their types *)
Definition code_fits (l : blocks) : Prop := forall c, blocks_into l = Ok c -> Forall block_typed c.
Definition ends_well (s : str) : Prop := forall a w, s = a ++ [w] -> is_ws w = false.
Definition event_fits (e : aevent) : Prop :=
  (forall k, SpecScreen.container_name e k -> P_Logic.container_name k) /\ ends_well (ae_name e) /\
  (forall id t, ae_type e = EtComponent id t -> t < 2 ^ 8) /\ code_fits (ae_code e).
(** a more block is written as a line with its name, a colon and its spec *)
Definition more_block_fits (kv : str * amore_block) : Prop :=
  P_Logic.container_name (fst kv ++ lit "_moreBlock") /\ ~ In 10 (fst kv) /\ ~ In 58 (fst kv) /\
  ~ In 10 (content_to_string (am_spec (snd kv))) /\ code_fits (am_code (snd kv)).
Definition screen_fits (s : screen) : Prop :=
  file_name (sc_layout_name s) /\ views_fit (sc_layout s) /\ (forall v, sc_fab s = Some v -> button_fits v) /\
  pool_typed va_name va_name (sc_variables s) /\ pool_typed lv_name lv_name (sc_list_variables s) /\
  Forall event_fits (sc_events s) /\ Forall more_block_fits (sc_more_blocks s) /\
  (* the white space around the section of the more blocks is cut off *)
  (forall k m r c n, sc_more_blocks s = (k, m) :: r -> k = c :: n -> is_ws c = false) /\
  (forall r k m, sc_more_blocks s = r ++ [(k, m)] -> ends_well (content_to_string (am_spec m))).
Definition project_fits (p : sw_project) (dt : datetime) : Prop :=
  let m := sp_metadata p in
  let c := sp_colors p in
  md_local_id m < 2 ^ 16 /\ md_version_code m < 2 ^ 16 /\ md_sketchware_version m < 2 ^ 8 /\ md_time_created m < 2 ^ 64 /\
  Forall (fun x => cval x < 2 ^ 32) [cs_primary c; cs_primary_dark c; cs_accent c; cs_control_normal c; cs_control_highlight c] /\
  datetime_of_timestamp (i64_of_u64 (md_time_created m)) = Some dt /\
  Forall screen_fits (sp_screens p) /\ Forall (fun v => file_name (cv_res_name v) /\ views_fit (cv_layout v)) (sp_custom_views p).

(** ** What the files can tell apart *)
(** all layouts in the order in which they are written *)
Definition all_layouts (p : sw_project) : list (list aview) := map sc_layout (sp_screens p) ++ map cv_layout (sp_custom_views p).
Definition has_code (s : screen) : Prop := sc_events s <> [] \/ sc_more_blocks s <> [].
(** nothing depends on its code; [onCreate] is there because of its code, however short that is *)
Definition idle (s : screen) : Prop :=
  (forall e, In e (sc_events s) -> ae_name e <> lit "onCreate" /\ ae_code e = []) /\
  (forall k m, In (k, m) (sc_more_blocks s) -> am_code m = []).
Definition told_apart (p : sw_project) (dt : datetime) : Prop :=
  (* the date is written without leading zeros, which it is read with; the year has four characters *)
  date_kept dt /\
  (* the file that lists the screens cannot do without one *)
  (sp_screens p <> [] \/ sp_custom_views p = []) /\
  (* only the last layout has views, and if it has none, there are no floating buttons *)
  (forall a l m b, all_layouts p = a ++ l :: m :: b -> l = []) /\
  ((forall s, In s (sp_screens p) -> sc_fab s = None) \/ exists a x l, all_layouts p = a ++ [x :: l]) /\
  (* there is no code after a screen that has none *)
  forall a s b t c, sp_screens p = a ++ s :: b ++ t :: c -> ~ has_code s -> idle t.

(** ** What remains *)
(** the date can be read as another one *)
Definition created_at (t : N) (p : sw_project) : sw_project :=
  let m := sp_metadata p in
  {| sp_custom_icon := sp_custom_icon p;
     sp_metadata := {| md_local_id := md_local_id m; md_name := md_name m; md_workspace_name := md_workspace_name m; md_package_name := md_package_name m;
                       md_time_created := t; md_sketchware_version := md_sketchware_version m; md_version_name := md_version_name m; md_version_code := md_version_code m |};
     sp_colors := sp_colors p; sp_screens := sp_screens p; sp_custom_views := sp_custom_views p; sp_libraries := sp_libraries p;
     sp_resources := sp_resources p; sp_automatic := sp_automatic p |}.
(** a screen with its code gone: the [onCreate] event goes with it *)
Definition without_code (s : screen) : screen :=
  {| sc_layout_name := sc_layout_name s; sc_java_name := sc_java_name s; sc_layout := sc_layout s; sc_variables := sc_variables s;
     sc_list_variables := sc_list_variables s;
     sc_more_blocks := map (fun kv => (fst kv, {| am_name := am_name (snd kv); am_spec := am_spec (snd kv); am_code := [] |})) (sc_more_blocks s);
     sc_components := sc_components s;
     sc_events := map (fun e => {| ae_name := ae_name e; ae_type := ae_type e; ae_code := [] |})
                    (filter (fun e => if list_eq_dec N.eq_dec (ae_name e) (lit "onCreate") then false else true) (sc_events s));
     sc_fab := sc_fab s; sc_fullscreen := sc_fullscreen s; sc_toolbar := sc_toolbar s; sc_drawer := sc_drawer s; sc_fab_enabled := sc_fab_enabled s;
     sc_orientation := sc_orientation s; sc_theme := sc_theme s; sc_keyboard := sc_keyboard s |}.
Definition without_button (s : screen) : screen :=
  {| sc_layout_name := sc_layout_name s; sc_java_name := sc_java_name s; sc_layout := sc_layout s; sc_variables := sc_variables s;
     sc_list_variables := sc_list_variables s; sc_more_blocks := sc_more_blocks s; sc_components := sc_components s; sc_events := sc_events s;
     sc_fab := None; sc_fullscreen := sc_fullscreen s; sc_toolbar := sc_toolbar s; sc_drawer := sc_drawer s; sc_fab_enabled := sc_fab_enabled s;
     sc_orientation := sc_orientation s; sc_theme := sc_theme s; sc_keyboard := sc_keyboard s |}.
(** the code is kept up to the first screen without events and more blocks *)
Fixpoint code_kept (l : list screen) : list screen :=
  match l with
  | [] => []
  | s :: r => match sc_events s, sc_more_blocks s with [], [] => map without_code (s :: r) | _, _ => s :: code_kept r end
  end.
(** floating buttons are lost if no layout has views, custom views if there is no screen *)
Definition remains (p : sw_project) : sw_project :=
  {| sp_custom_icon := sp_custom_icon p; sp_metadata := sp_metadata p; sp_colors := sp_colors p;
     sp_screens := if forallb (fun l => match l with [] => true | _ => false end) (all_layouts p)
                   then map without_button (code_kept (sp_screens p)) else code_kept (sp_screens p);
     sp_custom_views := match sp_screens p with [] => [] | _ => sp_custom_views p end;
     sp_libraries := sp_libraries p; sp_resources := sp_resources p; sp_automatic := sp_automatic p |}.

(** ** The icon *)
(** a project with automatic resources is saved with its icon as the only file; if that lies in a folder of images,
    sounds or fonts, it is taken for the file of a resource *)
Definition only_resource (t : res_type) (id : str) (w : res_wrapper) : resources :=
  {| re_images := match t with RImage => [(id, w)] | _ => [] end; re_sounds := match t with RSound => [(id, w)] | _ => [] end;
     re_fonts := match t with RFont => [(id, w)] | _ => [] end |}.
(** icon and resources before and after *)
Inductive icon_outcome (ex : str -> bool) : option res_wrapper -> resources -> option res_wrapper -> resources -> Prop :=
| io_none : icon_outcome ex None resources_empty None resources_empty
| io_icon w n : wrapper_class ex w RCustomIcon n -> icon_outcome ex (Some w) resources_empty (Some w) resources_empty
| io_lost w t n : t <> RCustomIcon -> wrapper_class ex w t n -> icon_outcome ex (Some w) resources_empty None resources_empty
| io_taken w t n id w' : t <> RCustomIcon -> wrapper_class ex w t n -> full_name w' n ->
    icon_outcome ex (Some w) (only_resource t id w') None (only_resource t id w).
