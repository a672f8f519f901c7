(** What the texts of the errors say, from the input that causes them. A message is a [str], a chain the messages of an error and
    of the errors that caused it. *)
From Verif Require Import Base Spec Crypto Utf8 SpecLines SpecReading SpecJson SpecNumber SpecTools SpecBlock SpecScreen SpecLoad M_Raw M_File M_Library M_Resource M_View M_Logic M_Project M_Parsed A_Block A_View A_Screen A_Project ResFilesProofs.

(** [before], a number, [after] *)
Definition counted (before : str) (n : N) (after : str) (m : str) : Prop := exists t, numeral n t /\ m = before ++ t ++ after.

(** ** [library] *)
Inductive library_said (lines : list str) (m : str) : Prop :=
| says_eof ps h : library_picks lib_headers lines ps [h] -> lib_items_ok ps -> In h lib_headers ->
    m = lit "end of file after the header " ++ h -> library_said lines m
| says_item ps h i r : library_picks lib_headers lines ps (h :: i :: r) -> lib_items_ok ps -> In h lib_headers -> library_item_parse i = None ->
    counted (lit "error while parsing a library item of " ++ h ++ lit " at line ") (N.of_nat (length lines - length (h :: i :: r) - length ps)) [] m ->
    library_said lines m
| says_missing ps pre h post : library_picks lib_headers lines ps [] -> lib_items_ok ps -> lib_headers = pre ++ h :: post ->
    ~ In h (map fst ps) -> incl pre (map fst ps) -> m = lit "missing a library item of " ++ h -> library_said lines m.

(** ** [view] *)
(** reading stops at [rest], line [i] (from 0) *)
Inductive view_said (i : nat) : list str -> list str -> Prop :=
| says_header t r m : ~ In 46 t ->
    counted (lit "invalid view header at line ") (N.of_nat i + 1) (lit ", couldn't separate screen name and container name") m ->
    view_said i ((64 :: t) :: r) [m]
| says_layout name body bad r m : ~ In 46 name -> ~ In [] body -> Forall (fun l => view_line_parse l <> None) body -> bad <> [] ->
    view_line_parse bad = None -> counted (lit "error while parsing the view at line ") (N.of_nat (length body)) (lit " of a layout") m ->
    view_said i ((64 :: name ++ lit ".xml") :: body ++ bad :: r) [lit "error while parsing layout of " ++ name ++ lit " xml"; m]
| says_fab name bad r : ~ In 46 name -> view_line_parse bad = None ->
    view_said i ((64 :: name ++ lit ".xml_fab") :: bad :: r) [lit "error while parsing a fab of screen " ++ name]
| says_fab_eof name m : ~ In 46 name -> counted (lit "EOF after the fab header of screen " ++ name ++ lit " at line ") (N.of_nat i + 2) [] m ->
    view_said i [64 :: name ++ lit ".xml_fab"] [m].

(** ** [logic] *)
Definition place (k : section_kind) (screen : str) : str :=
  match k with
  | KVariables => lit "variable pool of screen " ++ screen
  | KLists => lit "list variable pool of screen " ++ screen
  | KComponents => lit "component pool of screen " ++ screen
  | KEvents => lit "event pool of screen " ++ screen
  | KMoreBlocks => lit "more block pool of screen " ++ screen
  | KBlocks c => lit "a block container of screen " ++ screen ++ lit " container " ++ c
  end.
(** a number up to 255, possibly after + *)
Definition small_number (t : str) (n : N) : Prop :=
  exists sign ds, t = sign ++ ds /\ In sign [[]; lit "+"] /\ digits ds /\ Z.of_N n = decimal ds /\ n < 256.
Definition not_mapped (n : N) (m : str) : Prop := counted (lit "the value given (") n (lit ") is not mapped to any variable type") m.
(** why a line is not a variable, or not a list variable *)
Inductive variable_said (l : str) : list str -> Prop :=
| says_no_colon : ~ In 58 l -> variable_said l [lit "malformed variable, couldn't find `:` to separate"]
| says_no_number t r : l = t ++ 58 :: r -> ~ In 58 t -> (forall n, ~ small_number t n) -> variable_said l [lit "variable type `" ++ t ++ lit "` is not an int"]
| says_no_type t r n m m' : l = t ++ 58 :: r -> ~ In 58 t -> small_number t n -> 4 <= n ->
    counted (lit "variable type ") n (lit " is not mapped to any value") m -> not_mapped n m' -> variable_said l [m; m'].
Inductive list_variable_said (l : str) : list str -> Prop :=
| says_list_no_colon : ~ In 58 l -> list_variable_said l [lit "couldn't find a colon, is this malformed?"]
| says_list_no_number t r : l = t ++ 58 :: r -> ~ In 58 t -> (forall n, ~ small_number t n) -> list_variable_said l [lit "variable type is not a valid integer"]
| says_list_no_type t r n m m' : l = t ++ 58 :: r -> ~ In 58 t -> small_number t n -> 4 <= n ->
    counted (lit "variable type ") n (lit " is not a valid type") m -> not_mapped n m' -> list_variable_said l [m; m'].
(** the line [bad], after [n] lines of the section *)
Inductive line_said (n : N) (bad : str) : section_kind -> list str -> Prop :=
| says_variable m ms : counted (lit "error while parsing a variable at count ") n [] m -> variable_said bad ms -> line_said n bad KVariables (m :: ms)
| says_list m ms : counted (lit "error while parsing list variable at count ") n [] m -> list_variable_said bad ms -> line_said n bad KLists (m :: ms)
| says_component m : counted (lit "error while parsing component count ") n (lit " in a component pool") m -> component_parse bad = Err tt ->
    line_said n bad KComponents [m]
| says_event m : counted (lit "error while parsing an event after ") n (lit " lines, content: " ++ bad) m -> event_parse bad = Err tt ->
    line_said n bad KEvents [m]
| says_more_block m : counted (lit "error while parsing moreblock at count ") n [] m -> ~ In 58 bad ->
    line_said n bad KMoreBlocks [m; lit "moreblock is malformed, content: " ++ bad]
| says_block c : block_parse bad = Err tt -> line_said n bad (KBlocks c) [lit "error while parsing a block of a block container"].
(** reading stops at [rest], after [n] sections; the number after "line" counts sections *)
Inductive logic_said (n : N) : list str -> list str -> Prop :=
| says_container_header t r m : ~ contains (lit ".java_") (64 :: t) -> (forall k suf a, In (k, suf) pool_suffixes -> 64 :: t <> a ++ suf) ->
    counted (lit "error while parsing a block container header at line ") n [] m ->
    logic_said n ((64 :: t) :: r) [m; lit "couldn't get the container name"]
| says_line h screen k body bad r m ms : header_names h screen k -> ~ In [] body -> Forall (line_ok k) body -> bad <> [] ->
    counted (lit "error while parsing " ++ place k screen ++ lit " at line ") n [] m -> line_said (N.of_nat (length body)) bad k ms ->
    logic_said n (h :: body ++ bad :: r) (m :: ms).

(** ** The data files and the project *)
Definition file_said (lines : list str) (m : str) : Prop := exists i h l, first_bad file_headers lines file_item_parse i h l /\
  counted (lit "failed to parse a file item at line ") (N.of_nat i) (lit " with the content " ++ l) m.
Definition resource_said (lines : list str) (m : str) : Prop := exists i h l name, first_bad res_headers lines resource_item_parse i h l /\
  In (h, name) [(lit "@images", lit "Images"); (lit "@sounds", lit "Sounds"); (lit "@fonts", lit "Fonts")] /\
  counted (lit "error while parsing a resource item of " ++ name ++ lit " at line ") (N.of_nat i) [] m.
Definition view_file_said (lines : list str) (ms : list str) : Prop := exists es rest, view_entries lines es rest /\
  view_said (length lines - length rest) rest ms.
Definition logic_file_said (lines : list str) (ms : list str) : Prop := exists secs rest, logic_sections_of lines secs rest /\ Forall section_ok secs /\
  logic_said (N.of_nat (length secs)) rest ms.
(** a path that does not exist, or is not inside a resource folder *)
Definition files_said (dbg : str -> str) (ex : str -> bool) (ws : list res_wrapper) (m : str) : Prop :=
  exists before p after, ws = before ++ WPath p :: after /\ Forall (fun w => exists t n, wrapper_class ex w t n) before /\
    ((ex p = false /\ m = lit "file `" ++ dbg p ++ lit "` does not exist") \/
     (ex p = true /\ ~ (exists t n, wrapper_class ex (WPath p) t n) /\
      m = lit "path given `" ++ dbg p ++ lit "` is invalid (are you sure its pointing to a sketchware's resources folder?)")).
(** a data file: its name, when it can be read, what else is said about it *)
Record data_file := { df_name : string; df_reads : Prop; df_said : list str -> Prop }.
Definition data_files (mv : bool) (w : raw_project) : list data_file :=
  let readable {E A} (r : res E A) := exists a, r = Ok a in
  [{| df_name := "project"; df_reads := readable (project_parse (rp_project w)); df_said := fun ms => ms = [] |};
   {| df_name := "file"; df_reads := readable (file_parse (rp_file w)); df_said := fun ms => exists m, ms = [m] /\ file_said (split_on NL (rp_file w)) m |};
   {| df_name := "library"; df_reads := readable (library_parse (rp_library w)); df_said := fun ms => exists m, ms = [m] /\ library_said (split_on NL (rp_library w)) m |};
   {| df_name := "resource"; df_reads := readable (resource_parse (rp_resource w)); df_said := fun ms => exists m, ms = [m] /\ resource_said (split_on NL (rp_resource w)) m |};
   {| df_name := "view"; df_reads := readable (view_parse (rp_view w)); df_said := view_file_said (split_on NL (rp_view w)) |};
   {| df_name := "logic"; df_reads := readable (logic_parse mv (rp_logic w)); df_said := logic_file_said (split_on NL (rp_logic w)) |}].
(** the first data file that cannot be read; if all can be, the resource files *)
Definition project_said (dbg : str -> str) (ex : str -> bool) (mv : bool) (w : raw_project) (chain : list str) : Prop :=
  (exists before d after ms, data_files mv w = before ++ d :: after /\ Forall df_reads before /\ ~ df_reads d /\ df_said d ms /\
     chain = (lit "failed to parse the data file `" ++ lit (df_name d) ++ lit "`") :: ms) \/
  (Forall df_reads (data_files mv w) /\ exists ws m, rp_resource_files w = Some ws /\ files_said dbg ex ws m /\
     chain = [lit "failed retrieve resource files"; m]).

(** ** Loading into the API *)
(** why a text is not a number below 2^32 *)
Definition too_large (t : str) : Prop :=
  exists sign ds r, t = sign ++ ds ++ r /\ In sign [[]; lit "+"] /\ digits ds /\ (4294967296 <= decimal ds)%Z.
Definition id_fault (t : str) (kind : str) : Prop :=
  (t = [] /\ kind = lit "Empty") \/ (t <> [] /\ too_large t /\ kind = lit "PosOverflow") \/ (t <> [] /\ ~ too_large t /\ kind = lit "InvalidDigit").
(** what is said about a spec or its arguments, once inside the text for the block and once as its cause *)
Inductive content_says (dbg : str -> str) : content_error -> str -> str -> Prop :=
| cs_block id m1 m2 : counted (lit "BlockNotFound { block_id: ") id (lit " }") m1 -> counted (lit "block with id ") id (lit " not found") m2 ->
    content_says dbg (CeBlockNotFound id) m1 m2
| cs_reference a : content_says dbg (CeInvalidBlockId a) (lit "InvalidBlockId { value: " ++ dbg a ++ lit " }")
    (lit "invalid block id given on params while referencing a block argument: `" ++ a ++ lit "`")
| cs_unknown n t : content_says dbg (CeUnknownSpecParam n t) (lit "UnknownSpecParam { name: " ++ dbg n ++ lit ", full: " ++ dbg t ++ lit " }")
    (lit "unknown spec parameter: " ++ n)
| cs_arguments : content_says dbg CeRanOutOfArgs (lit "RanOutOfArgs") (lit "not enough arguments is given")
| cs_number a : content_says dbg (CeInvalidNumberArgument a) (lit "InvalidNumberArgument { value: " ++ dbg a ++ lit " }")
    (lit "invalid argument given on a number-typed parameter: " ++ a)
| cs_boolean a : content_says dbg (CeInvalidBooleanArgument a) (lit "InvalidBooleanArgument { value: " ++ dbg a ++ lit " }")
    (lit "invalid argument given on a boolean-typed parameter: " ++ a).
Inductive conv_says (dbg : str -> str) : conv_error -> list str -> Prop :=
| cv_id id kind : id_fault id kind ->
    conv_says dbg (MalformedBlockId id) [lit "malformed block id: " ++ id ++ lit ": ParseIntError { kind: " ++ kind ++ lit " }"]
| cv_missing id m : counted (lit "block with id ") id (lit " not found") m -> conv_says dbg (BlockNotFound id) [m]
| cv_sub1 id ptr e m ms : counted (lit "error while parsing substack1 of block with id `") id (lit "`") m -> conv_says dbg e ms ->
    conv_says dbg (Substack1ParseError id ptr e) (m :: ms)
| cv_sub2 id ptr e m ms : counted (lit "error while parsing substack2 of block with id `") id (lit "`") m -> conv_says dbg e ms ->
    conv_says dbg (Substack2ParseError id ptr e) (m :: ms)
| cv_type t n : conv_says dbg (InvalidType {| ibt_type := t; ibt_name := n |})
    [lit "invalid block type: `" ++ t ++ lit "`"; lit "invalid block type / type name. block type: " ++ t ++ lit ", type name: " ++ n]
| cv_content e m1 m2 : content_says dbg e m1 m2 -> conv_says dbg (BlockContentParseError e) [lit "error while parsing the block content: " ++ m1; m2].
Definition blocks_said (dbg : str -> str) (c : list block) (ms : list str) : Prop := exists e, container_fails c (Some e) /\ conv_says dbg e ms.
(** the first view without a known parent; debug text, text *)
Inductive layout_said (dbg : str -> str) (l : layout) : str -> str -> Prop :=
| says_no_parent before a after : l = before ++ a :: after -> (exists F, parse_raw_layout before = Ok F) -> av_parent a = None ->
    layout_said dbg l (lit "NoParentField { view_id: " ++ dbg (av_id a) ++ lit " }") (lit "view with id " ++ av_id a ++ lit " doesn't have a parent field")
| says_parent before a after p : l = before ++ a :: after -> (exists F, parse_raw_layout before = Ok F) -> av_parent a = Some p -> p <> lit "root" ->
    ~ (exists b, In b before /\ av_id b = p) ->
    layout_said dbg l (lit "NonexistentParent { view_id: " ++ dbg (av_id a) ++ lit ", parent_id: " ++ dbg p ++ lit " }")
      (lit "couldn't find parent of view with id `" ++ av_id a ++ lit "` (parent id: `" ++ p ++ lit "`)").
(** the parts up to here are read *)
Definition so_far {X E A} (step : list X -> X -> res E A -> Prop) (l : list X) : Prop := forall b z a, l = b ++ z :: a -> exists y, step b z (Ok y).
(** a screen with the layout [ve] and the logic [le] *)
Inductive screen_said (dbg : str -> str) (ve : layout) (le : screen_logic) : list str -> Prop :=
| says_screen_layout m1 m2 : layout_said dbg ve m1 m2 -> screen_said dbg ve le [lit "error while parsing the layout: `" ++ m1 ++ lit "`"; m2]
| says_more_block_spec before id mb after ws t c r : or_empty (sl_more_blocks le) = before ++ (id, mb) :: after ->
    so_far (more_block_step (sl_block_containers le)) before ->
    words (mb_spec mb) ws -> In t ws -> t = 37 :: c :: r -> ~ In c (lit "sbdm") ->
    screen_said dbg ve le [lit "error while parsing the spec of the moreblock with id `" ++ id ++ lit "`"; lit "unknown spec parameter: " ++ [c]]
| says_more_block_code before id mb after c ms : or_empty (sl_more_blocks le) = before ++ (id, mb) :: after ->
    so_far (more_block_step (sl_block_containers le)) before ->
    sget (more_block_key id) (sl_block_containers le) = Some c -> blocks_said dbg c ms ->
    screen_said dbg ve le ((lit "error while parsing the blocks of container `" ++ more_block_key id ++ lit "`") :: ms)
| says_component_type before c after m : or_empty (sl_components le) = before ++ c :: after ->
    so_far (more_block_step (sl_block_containers le)) (or_empty (sl_more_blocks le)) -> so_far component_step before ->
    counted (lit "unknown component type `") (co_type c) (lit "` of component id " ++ co_id c) m -> screen_said dbg ve le [m; m]
| says_event_type raw before ev after m : event_list le raw -> raw = before ++ ev :: after ->
    so_far (more_block_step (sl_block_containers le)) (or_empty (sl_more_blocks le)) -> so_far component_step (or_empty (sl_components le)) ->
    so_far (event_step (sl_block_containers le) (or_empty (sl_more_blocks le))) before -> ~ (exists e, stands_for ev e) ->
    counted (lit "unknown event type `") (ev_type ev) (lit "` for event `" ++ ev_name ev ++ lit "`") m -> screen_said dbg ve le [m; m]
| says_event_code raw before ev after e k c ms : event_list le raw -> raw = before ++ ev :: after ->
    so_far (more_block_step (sl_block_containers le)) (or_empty (sl_more_blocks le)) -> so_far component_step (or_empty (sl_components le)) ->
    so_far (event_step (sl_block_containers le) (or_empty (sl_more_blocks le))) before -> stands_for ev e -> container_name e k ->
    sget k (sl_block_containers le) = Some c -> blocks_said dbg c ms ->
    screen_said dbg ve le ((lit "error while parsing the blocks of container `" ++ k ++ lit "`") :: ms).
Definition use_flags (lib : library) : list (str * str) :=
  [(lit "firebase", li_use_yn (l_firebase lib)); (lit "admob", li_use_yn (l_admob lib)); (lit "google map", li_use_yn (l_google_map lib))].
Inductive loading_said (dbg : str -> str) (rnd : res_type -> nat -> N) (v : parsed_project) : list str -> Prop :=
| says_screen before fe after ve le fab ms : f_activities (pp_file v) = before ++ fe :: after -> so_far (screen_step v) before ->
    screen_parts v before fe ve le fab -> screen_said dbg ve le ms ->
    loading_said dbg rnd v ((lit "error while reconstructing screen `" ++ fi_filename fe ++ lit "`") :: ms)
| says_no_layout before fe after : so_far (screen_step v) (f_activities (pp_file v)) -> f_custom_views (pp_file v) = before ++ fe :: after ->
    so_far (custom_view_step v) before ->
    (In (fi_filename fe) (map fi_filename (f_activities (pp_file v) ++ before)) \/ sget (fi_filename fe) (vw_layouts (pp_view v)) = None) ->
    loading_said dbg rnd v [lit "couldn't find the layout of the custom view `" ++ fi_filename fe ++ lit "`"]
| says_custom_layout before fe after lay m1 m2 : so_far (screen_step v) (f_activities (pp_file v)) -> f_custom_views (pp_file v) = before ++ fe :: after ->
    so_far (custom_view_step v) before -> sget (fi_filename fe) (vw_layouts (pp_view v)) = Some lay -> layout_said dbg lay m1 m2 ->
    loading_said dbg rnd v [lit "error while parsing the layout of custom view `" ++ fi_filename fe ++ lit "`"; m2]
| says_use_flag before name yn after : so_far (screen_step v) (f_activities (pp_file v)) -> so_far (custom_view_step v) (f_custom_views (pp_file v)) ->
    use_flags (pp_library v) = before ++ (name, yn) :: after -> Forall (fun x => In (snd x) [lit "Y"; lit "N"]) before -> ~ In yn [lit "Y"; lit "N"] ->
    loading_said dbg rnd v [lit "use_yn of library `" ++ name ++ lit "` has an invalid value `" ++ yn ++ lit "` (expected `Y` or `N`)"]
| says_resource t files items before it after : In (t, files, items)
      [(RImage, option_map rf_images (pp_resource_files v), rs_images (pp_resource v)); (RSound, option_map rf_sounds (pp_resource_files v), rs_sounds (pp_resource v));
       (RFont, option_map rf_fonts (pp_resource_files v), rs_fonts (pp_resource v))] ->
    items = before ++ it :: after -> so_far (resource_step t (rnd t) files) before ->
    (exists m, files = Some m /\ (In (ri_full_name it) (map ri_full_name before) \/ sget (ri_full_name it) m = None)) ->
    loading_said dbg rnd v [lit "couldn't find a resource file matching with id `" ++ ri_name it ++ lit "`"].

(** ** Encrypted data (lib.rs L67-77, mod.rs L78-132) *)
Definition is_text (data : list N) : Prop := exists t, string_ok t /\ decrypt_sw_encrypted data = Ok (utf8_encode t).
Inductive data_said (data : list N) : str -> Prop :=
| says_undecryptable : (forall plain, decrypt_sw_encrypted data <> Ok plain) -> data_said data (lit "decryption error")
| says_not_text plain : decrypt_sw_encrypted data = Ok plain -> (forall t, string_ok t -> utf8_encode t <> plain) ->
    data_said data (lit "couldn't convert binaries into utf8").
(** the first of the six data files that is not the encryption of a text, in this order *)
Definition encrypted_said (datas : list (list N)) (m : str) : Prop :=
  exists before data after, datas = before ++ data :: after /\ Forall is_text before /\ data_said data m.
