(** What a project that has been loaded must satisfy to be saved and opened again, used in the statements of P_Loaded.v. *)
From Verif Require Import Base M_Logic A_Block A_View A_Screen A_Project SpecView SpecScreen SpecSave P_View P_Logic.

(** the floats of all views are finite *)
Definition finite_layout (F : list aview) : Prop := Forall (fun n => finite_floats (vn_raw n)) (flat_map nodes F).
(** what [screen_fits] asks of a screen besides what holds of every screen that was loaded: finite numbers in the layout, names that survive in their
    place in the files *)
Definition last_name {A} (name : A -> str) (p : smap A) : Prop := forall r k x, p = r ++ [(k, x)] -> ends_well (name x).
Definition screen_tidy (s : screen) : Prop :=
  file_name (sc_layout_name s) /\ finite_layout (sc_layout s) /\ (forall v, sc_fab s = Some v -> finite_layout [v]) /\
  last_name va_name (sc_variables s) /\ last_name lv_name (sc_list_variables s) /\
  Forall (fun e => (forall k, SpecScreen.container_name e k -> P_Logic.container_name k) /\ ends_well (ae_name e)) (sc_events s) /\
  Forall (fun kv => forall a b, fst kv ++ lit "_moreBlock" <> a ++ lit ".java_" ++ b) (sc_more_blocks s) /\
  (forall k m r c n, sc_more_blocks s = (k, m) :: r -> k = c :: n -> is_ws c = false) /\
  (forall r k m, sc_more_blocks s = r ++ [(k, m)] -> ends_well (content_to_string (am_spec m))).
Definition custom_tidy (v : custom_view) : Prop := file_name (cv_res_name v) /\ finite_layout (cv_layout v).
(** a screen that the logic file has nothing about *)
Definition no_logic (s : screen) : Prop := sc_variables s = [] /\ sc_list_variables s = [] /\ sc_components s = [] /\ sc_events s = [] /\ sc_more_blocks s = [].
(** a screen under another Java name; a project whose screens have the Java names that belong to their layouts *)
Definition with_java (j : str) (s : screen) : screen :=
  {| sc_layout_name := sc_layout_name s; sc_java_name := j; sc_layout := sc_layout s; sc_variables := sc_variables s; sc_list_variables := sc_list_variables s;
     sc_more_blocks := sc_more_blocks s; sc_components := sc_components s; sc_events := sc_events s; sc_fab := sc_fab s; sc_fullscreen := sc_fullscreen s;
     sc_toolbar := sc_toolbar s; sc_drawer := sc_drawer s; sc_fab_enabled := sc_fab_enabled s; sc_orientation := sc_orientation s; sc_theme := sc_theme s; sc_keyboard := sc_keyboard s |}.
Definition proper_names (p : sw_project) : sw_project :=
  {| sp_custom_icon := sp_custom_icon p; sp_metadata := sp_metadata p; sp_colors := sp_colors p;
     sp_screens := map (fun s => with_java (view_name_to_logic (sc_layout_name s)) s) (sp_screens p);
     sp_custom_views := sp_custom_views p; sp_libraries := sp_libraries p; sp_resources := sp_resources p; sp_automatic := sp_automatic p |}.
