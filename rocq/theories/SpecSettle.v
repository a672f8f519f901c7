(** What becomes of the code of a project that is saved and loaded again, used in the statements of P_Settle.v. *)
From Verif Require Import Base A_Block A_View A_Screen A_Project SpecBlock SpecView SpecScreen SpecProject SpecSave SpecBack.

(** ** Projects with their code settled *)
(** every block keeps, in the place of each argument and sub stack, only the block written last in it (C94) *)
Definition settle_screen (s : screen) : screen :=
  {| sc_layout_name := sc_layout_name s; sc_java_name := sc_java_name s; sc_layout := sc_layout s; sc_variables := sc_variables s;
     sc_list_variables := sc_list_variables s;
     sc_more_blocks := map (fun kv => (fst kv, {| am_name := am_name (snd kv); am_spec := am_spec (snd kv); am_code := map block_back (am_code (snd kv)) |})) (sc_more_blocks s);
     sc_components := sc_components s;
     sc_events := map (fun e => {| ae_name := ae_name e; ae_type := ae_type e; ae_code := map block_back (ae_code e) |}) (sc_events s);
     sc_fab := sc_fab s; sc_fullscreen := sc_fullscreen s; sc_toolbar := sc_toolbar s; sc_drawer := sc_drawer s; sc_fab_enabled := sc_fab_enabled s;
     sc_orientation := sc_orientation s; sc_theme := sc_theme s; sc_keyboard := sc_keyboard s |}.
Definition set_screens (l : list screen) (p : sw_project) : sw_project :=
  {| sp_custom_icon := sp_custom_icon p; sp_metadata := sp_metadata p; sp_colors := sp_colors p; sp_screens := l;
     sp_custom_views := sp_custom_views p; sp_libraries := sp_libraries p; sp_resources := sp_resources p; sp_automatic := sp_automatic p |}.
Definition settle (p : sw_project) : sw_project := set_screens (map settle_screen (sp_screens p)) p.

(** ** Which code is meant *)
(** code that can be written, with names and strings that can be told apart *)
Definition code_plain (l : blocks) : Prop :=
  9 + N.of_nat (blocks_size l) < 2 ^ 31 /\ Forall no_holes l /\ Forall (fun b => Forall block_plain (read_again b)) l.
(** numbers and booleans are given and no type is that of a list, as far as the blocks are read again *)
Definition code_given (l : blocks) : Prop := Forall (fun b => Forall block_given (read_again b)) l.
Definition screen_codes (s : screen) : list blocks := map ae_code (sc_events s) ++ map (fun kv => am_code (snd kv)) (sc_more_blocks s).
Definition all_given (l : list screen) : Prop := Forall (fun s => Forall code_given (screen_codes s)) l.

(** ** Projects that come back with their code settled *)
(** as [ready_screen] and [ready_project], but the code need not survive *)
Definition plain_screen (s : screen) : Prop :=
  sc_java_name s = view_name_to_logic (sc_layout_name s) /\ NoDup (map fst (sc_more_blocks s)) /\ NoDup (map fst (sc_components s)) /\
  Forall (fun kv => am_name (snd kv) = fst kv /\ am_spec (snd kv) <> [] /\ Forall plain_item (am_spec (snd kv))) (sc_more_blocks s) /\
  Forall code_plain (screen_codes s) /\ shared_empty s /\ on_create_first (sc_events s) /\ layout_ok (sc_layout s).
Definition plain_project (p : sw_project) : Prop :=
  Forall plain_screen (sp_screens p) /\ Forall (fun c => layout_ok (cv_layout c)) (sp_custom_views p) /\
  NoDup (map sc_layout_name (sp_screens p) ++ map cv_res_name (sp_custom_views p)) /\ NoDup (map sc_java_name (sp_screens p)).
