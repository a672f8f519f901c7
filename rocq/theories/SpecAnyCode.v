(** What becomes of any code of a project that is saved and loaded again, used in the statements of P_AnyCode.v. *)
From Verif Require Import Base A_Block A_View A_Screen A_Project SpecBlock SpecView SpecScreen SpecProject SpecSave SpecBack SpecSettle SpecSpread SpecSaid SpecMenu SpecRefs.

(** ** Code *)
(** what comes back (C103) *)
Definition code_back (l : blocks) : blocks := map block_back (stack_menus 9 (map (fun b => tidy (spread b)) l)).
(** code that can be written, whose numbers are those of the format, and whose strings do not stand for blocks that would otherwise be lost (C106) *)
Definition code_open (l : blocks) : Prop :=
  9 + N.of_nat (blocks_size l) < 2 ^ 31 /\ Forall no_holes l /\ Forall (fun b => Forall block_canonical (read_again b)) l /\ ~ refs_lost l.
(** code that can be read again *)
Definition code_said (l : blocks) : Prop := Forall (fun b => Forall block_said (read_again b)) l.

(** ** Projects *)
Definition screen_back (s : screen) : screen :=
  {| sc_layout_name := sc_layout_name s; sc_java_name := sc_java_name s; sc_layout := sc_layout s; sc_variables := sc_variables s;
     sc_list_variables := sc_list_variables s;
     sc_more_blocks := map (fun kv => (fst kv, {| am_name := am_name (snd kv); am_spec := am_spec (snd kv); am_code := code_back (am_code (snd kv)) |})) (sc_more_blocks s);
     sc_components := sc_components s;
     sc_events := map (fun e => {| ae_name := ae_name e; ae_type := ae_type e; ae_code := code_back (ae_code e) |}) (sc_events s);
     sc_fab := sc_fab s; sc_fullscreen := sc_fullscreen s; sc_toolbar := sc_toolbar s; sc_drawer := sc_drawer s; sc_fab_enabled := sc_fab_enabled s;
     sc_orientation := sc_orientation s; sc_theme := sc_theme s; sc_keyboard := sc_keyboard s |}.
Definition project_back (p : sw_project) : sw_project := set_screens (map screen_back (sp_screens p)) p.
Definition all_said (l : list screen) : Prop := Forall (fun s => Forall code_said (screen_codes s)) l.
(** as [plain_screen] and [plain_project], with any code *)
Definition open_screen (s : screen) : Prop :=
  sc_java_name s = view_name_to_logic (sc_layout_name s) /\ NoDup (map fst (sc_more_blocks s)) /\ NoDup (map fst (sc_components s)) /\
  Forall (fun kv => am_name (snd kv) = fst kv /\ am_spec (snd kv) <> [] /\ Forall plain_item (am_spec (snd kv))) (sc_more_blocks s) /\
  Forall code_open (screen_codes s) /\ shared_empty s /\ on_create_first (sc_events s) /\ layout_ok (sc_layout s).
Definition open_project (p : sw_project) : Prop :=
  Forall open_screen (sp_screens p) /\ Forall (fun c => layout_ok (cv_layout c)) (sp_custom_views p) /\
  NoDup (map sc_layout_name (sp_screens p) ++ map cv_res_name (sp_custom_views p)) /\ NoDup (map sc_java_name (sp_screens p)).
