(** What a data file means, from its sections: declarative, without the models' loops.
    Uses the parsers of single lines (items, views, variables, blocks, ...) and the sections of SpecLines.v. *)
From Verif Require Import Base Spec SpecLines Dec Json SpecNumber Recs M_Color M_Date M_File M_Resource M_Library M_View M_Project M_Logic.

(** ** [file] and [resource] *)
Definition file_headers : list str := [lit "@activity"; lit "@customview"].
Definition res_headers : list str := [lit "@images"; lit "@sounds"; lit "@fonts"].
Definition rsec (s : option str) : res_section :=
  match s with None => RsNone | Some h => if str_eqb h (lit "@images") then RsImages else if str_eqb h (lit "@sounds") then RsSounds else RsFonts end.

(** ** [library] *)
Definition lib_headers : list str := [lit "@firebaseDB"; lit "@compat"; lit "@admob"; lit "@googleMap"].
Definition lib_items_ok (ps : list (str * str)) : Prop := forall h i, In (h, i) ps -> exists x, library_item_parse i = Some x.
(** the four fields of a library with their headers *)
Definition lib_slots (l : library) : list (str * library_item) :=
  combine lib_headers [l_firebase l; l_compat l; l_admob l; l_google_map l].

(** ** [view] *)
Definition lay_good (p : str * list str) (q : str * layout) : Prop := fst p = fst q /\ Forall2 (fun l x => view_line_parse l = Some x) (snd p) (snd q).
Definition fab_good (p : str * str) (q : str * android_view) : Prop := fst p = fst q /\ view_line_parse (snd p) = Some (snd q).
(** how reading stops at [rest]; [n] is the number of the line at [rest], from 1 *)
Definition view_error_at (rest : list str) (n : N) (e : view_parse_error) : Prop :=
  (exists t r, rest = (64 :: t) :: r /\ ~ In 46 t /\ e = VInvalidHeader n (64 :: t)) \/
  (exists name body bad r xs, rest = (64 :: name ++ lit ".xml") :: body ++ bad :: r /\ ~ In 46 name /\ ~ In [] body /\
     Forall2 (fun l x => view_line_parse l = Some x) body xs /\ bad <> [] /\ view_line_parse bad = None /\
     e = VLayoutParseError name (lit "xml") {| lpe_view_before := last (map Some xs) None; lpe_content := bad; lpe_line := N.of_nat (length body) |}) \/
  (exists name bad r, rest = (64 :: name ++ lit ".xml_fab") :: bad :: r /\ ~ In 46 name /\ view_line_parse bad = None /\
     e = VFabParseError name (n + 1) (64 :: name ++ lit ".xml_fab")) \/
  (exists name, rest = [64 :: name ++ lit ".xml_fab"] /\ ~ In 46 name /\ e = VEOFAfterFabHeader name (n + 1)).

(** ** [logic] *)
(** the lines of a section, each read by [p] *)
Definition lines_read {E A} (p : str -> res E A) (body : list str) (xs : list A) : Prop :=
  Forall2 (fun l x => p l = Ok x) body xs.
(** a pool keyed by the names of its entries *)
Definition pool_read {E A} (p : str -> res E A) (name : A -> str) (body : list str) (m : list (str * A)) : Prop :=
  exists xs, lines_read p body xs /\ m = keep_last (map (fun x => (name x, x)) xs).
(** a section [hb] is a section of kind [k] of the screen [nm] and its lines mean [x] *)
Definition section_means {A} (nm : str) (k : section_kind) (R : list str -> A -> Prop) (hb : str * list str) (x : A) : Prop :=
  header_names (fst hb) nm k /\ R (snd hb) x.
(** the value of a field that every section of the kind [k] of the screen overwrites *)
Definition last_section {A} (secs : list (str * list str)) (nm : str) (k : section_kind) (R : list str -> A -> Prop) (o : option A) : Prop :=
  exists ps, selects (section_means nm k R) secs ps /\ o = last_of ps.
(** the screen [nm] made from the sections *)
Record screen_of (secs : list (str * list str)) (nm : str) (x : screen_logic) : Prop := {
  so_name : sl_name x = nm;
  so_variables : last_section secs nm KVariables (pool_read variable_parse va_name) (sl_variables x);
  so_lists : last_section secs nm KLists (pool_read list_variable_parse lv_name) (sl_list_variables x);
  so_components : last_section secs nm KComponents (lines_read component_parse) (sl_components x);
  so_events : last_section secs nm KEvents (lines_read event_parse) (sl_events x);
  so_more_blocks : last_section secs nm KMoreBlocks (pool_read more_block_parse mb_id) (sl_more_blocks x);
  so_containers : exists cs, selects (fun hb cb => section_means nm (KBlocks (fst cb)) (lines_read block_parse) hb (snd cb)) secs cs /\
    sl_block_containers x = keep_last cs
}.
(** the map: one screen for each name that a header names; [mv] as in M_Logic.v *)
Definition logic_of (mv : bool) (secs : list (str * list str)) (m : logic) : Prop :=
  (exists ns, Forall2 (fun hb n => exists k, header_names (fst hb) n k) secs ns /\ map fst m = if mv then by_last ns else by_first ns) /\
  forall nm x, In (nm, x) m -> screen_of secs nm x.
(** line [l] can be read in a section of kind [k] *)
Definition line_ok (k : section_kind) (l : str) : Prop :=
  match k with
  | KVariables => exists x, variable_parse l = Ok x
  | KLists => exists x, list_variable_parse l = Ok x
  | KComponents => exists x, component_parse l = Ok x
  | KEvents => exists x, event_parse l = Ok x
  | KMoreBlocks => exists x, more_block_parse l = Ok x
  | KBlocks _ => exists x, block_parse l = Ok x
  end.
Definition section_ok (hb : str * list str) : Prop := exists nm k, header_names (fst hb) nm k /\ Forall (line_ok k) (snd hb).
(** the error for the line [bad] after the lines [good] of a section; [n] is the number of sections before *)
Definition pool_err {E} (good : list str) (bad : str) (e : E) : pool_error E :=
  {| pe_count := N.of_nat (length good); pe_content := bad; pe_source := e |}.
Inductive line_error (nm : str) (n : N) (good : list str) (bad : str) : section_kind -> logic_error -> Prop :=
| be_var e : variable_parse bad = Err e -> line_error nm n good bad KVariables (LVariablePool nm n (pool_err good bad e))
| be_list e : list_variable_parse bad = Err e -> line_error nm n good bad KLists (LListVariablePool nm n (pool_err good bad e))
| be_comp e : component_parse bad = Err e -> line_error nm n good bad KComponents (LComponentPool nm n (pool_err good bad e))
| be_ev e : event_parse bad = Err e -> line_error nm n good bad KEvents (LEventPool nm n (pool_err good bad e))
| be_mb e : more_block_parse bad = Err e -> line_error nm n good bad KMoreBlocks (LMoreBlockPool nm n (pool_err good bad e))
| be_blk c e : block_parse bad = Err e -> line_error nm n good bad (KBlocks c) (LBlockContainer nm c n {| bce_block_count := N.of_nat (length good) |}).
(** how reading stops at [rest] after [n] good sections: with an error, or ([None]) a panic *)
Inductive logic_stop (n : N) : list str -> option logic_error -> Prop :=
| lst_name t r : ~ contains (lit ".java_") (64 :: t) -> (forall k suf a, In (k, suf) pool_suffixes -> 64 :: t <> a ++ suf) ->
    logic_stop n ((64 :: t) :: r) (Some (LHeader n NoContainerName))
| lst_cut r k suf mid : In (k, suf) pool_suffixes -> ~ (exists nm c, mid = nm ++ [c] /\ c < 128) ->
    logic_stop n ((64 :: mid ++ suf) :: r) None
| lst_body h nm k body bad r e : header_names h nm k -> ~ In [] body -> Forall (line_ok k) body -> bad <> [] -> line_error nm n body bad k e ->
    logic_stop n (h :: body ++ bad :: r) (Some e).

(** ** [project]: the fields of a JSON object *)
(** the name occurs exactly once, with the value [v] *)
Definition only (kvs : list (option str * json)) (k : str) (v : json) : Prop :=
  exists pre post, kvs = pre ++ (Some k, v) :: post /\ ~ In (Some k) (map fst (pre ++ post)).
Definition reads_as {A} (kvs : list (option str * json)) (k : string) (d : json -> option A) (x : A) : Prop :=
  exists v, only kvs (lit k) v /\ d v = Some x.
(** the names that are read while the text is scanned, and the five that are taken from the rest *)
Definition project_names : list str :=
  [lit "sc_id"; lit "my_app_name"; lit "my_ws_name"; lit "my_sc_pkg_name"; lit "sc_ver_code"; lit "sc_ver_name"; lit "my_sc_reg_dt"; lit "custom_icon"; lit "sketchware_ver"].
Definition colour_names : list str :=
  [lit "color_primary"; lit "color_primary_dark"; lit "color_accent"; lit "color_control_normal"; lit "color_control_highlight"].
(** a name is valid text; the value of every other field can be stored *)
Definition entry_ok (kv : option str * json) : Prop :=
  exists k, fst kv = Some k /\ (In k project_names \/ storable (snd kv)).
Record project_read (kvs : list (option str * json)) (p : project) : Prop := {
  po_id : reads_as kvs "sc_id" d_u16_text (pj_id p);
  po_app : reads_as kvs "my_app_name" d_str (pj_app_name p);
  po_ws : reads_as kvs "my_ws_name" d_str (pj_workspace_name p);
  po_pkg : reads_as kvs "my_sc_pkg_name" d_str (pj_package_name p);
  po_vc : reads_as kvs "sc_ver_code" d_u16_text (pj_version_code p);
  po_vn : reads_as kvs "sc_ver_name" d_str (pj_version_name p);
  po_date : exists t, reads_as kvs "my_sc_reg_dt" d_str t /\ date_de t = Ok (pj_date_created p);
  po_icon : reads_as kvs "custom_icon" d_bool (pj_custom_icon p);
  po_sv : reads_as kvs "sketchware_ver" d_u8 (pj_sketchware_version p);
  po_c1 : reads_as kvs "color_primary" d_color (pal_primary (pj_palette p));
  po_c2 : reads_as kvs "color_primary_dark" d_color (pal_primary_dark (pj_palette p));
  po_c3 : reads_as kvs "color_accent" d_color (pal_accent (pj_palette p));
  po_c4 : reads_as kvs "color_control_normal" d_color (pal_control_normal (pj_palette p));
  po_c5 : reads_as kvs "color_control_highlight" d_color (pal_control_highlight (pj_palette p));
  po_all : Forall entry_ok kvs
}.
