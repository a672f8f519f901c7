(** Small specifications about whole projects, used in the statements of P_ApiProject.v. *)
From Verif Require Import Base M_Raw M_File M_Library M_Resource M_View M_Logic M_Parsed A_Block A_View A_Screen A_Project SpecBlock SpecView SpecScreen.

(** ** Conversion of file entries *)
(** the settings of an activity entry *)
Definition same_settings (fe : file_item) (s : screen) : Prop :=
  sc_layout_name s = fi_filename fe /\ sc_fullscreen s = ao_fullscreen (fi_options fe) /\ sc_toolbar s = ao_toolbar (fi_options fe) /\
  sc_drawer s = ao_drawer (fi_options fe) /\ sc_fab_enabled s = ao_fab (fi_options fe) /\ sc_orientation s = fi_orientation fe /\
  sc_theme s = fi_theme fe /\ sc_keyboard s = fi_keyboard fe.

(** ** Projects that come back *)
Definition same_settings_of (s s' : screen) : Prop :=
  sc_layout_name s' = sc_layout_name s /\ sc_java_name s' = sc_java_name s /\ sc_fullscreen s' = sc_fullscreen s /\ sc_toolbar s' = sc_toolbar s /\
  sc_drawer s' = sc_drawer s /\ sc_fab_enabled s' = sc_fab_enabled s /\ sc_orientation s' = sc_orientation s /\ sc_theme s' = sc_theme s /\
  sc_keyboard s' = sc_keyboard s.
(** the floating button loses its children *)
Definition same_fab (f f' : option aview) : Prop :=
  match f, f' with
  | None, None => True
  | Some v, Some v' => same_view (vnode v) (vnode v') /\ vchildren v' = []
  | _, _ => False
  end.
Definition same_screen (s s' : screen) : Prop :=
  same_settings_of s s' /\ same_logic s s' /\ same_layout (sc_layout s) (sc_layout s') /\ same_fab (sc_fab s) (sc_fab s').
Definition same_custom_view (c c' : custom_view) : Prop := cv_res_name c' = cv_res_name c /\ same_layout (cv_layout c) (cv_layout c').
(** the file name of a resource: the last component of a path *)
Definition full_name (w : res_wrapper) (n : str) : Prop := @get_full_name unit w = Ok n.
(** the ids and file names of the resources in order, with files that are only known by a number *)
Definition numbered_resource (t : res_type) (a b : str * res_wrapper) : Prop :=
  fst b = fst a /\ exists i n, full_name (snd a) n /\ snd b = WU32Id i n t.
Definition resources_of (r : resources) : list (res_type * smap res_wrapper) :=
  [(RImage, re_images r); (RSound, re_sounds r); (RFont, re_fonts r)].
Definition ready_screen (s : screen) : Prop :=
  sc_java_name s = view_name_to_logic (sc_layout_name s) /\ NoDup (map fst (sc_more_blocks s)) /\ NoDup (map fst (sc_components s)) /\
  good_screen s /\ layout_ok (sc_layout s).
Definition ready_project (p : sw_project) : Prop :=
  Forall ready_screen (sp_screens p) /\ Forall (fun c => layout_ok (cv_layout c)) (sp_custom_views p) /\
  NoDup (map sc_layout_name (sp_screens p) ++ map cv_res_name (sp_custom_views p)) /\ NoDup (map sc_java_name (sp_screens p)).
Definition ready_resources (r : resources) : Prop :=
  forall t m, In (t, m) (resources_of r) -> NoDup (map fst m) /\ Forall (fun kv => exists n, full_name (snd kv) n) m.
