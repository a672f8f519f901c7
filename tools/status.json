{
 "C05": {
  "note": "Out-of-place part proved. In-place atomicity is false (std::fs::write truncates first): C05_in_place_refuted; what holds is C05_in_place_partial."
 },
 "C16": {
  "note": "Exact: the round trip holds iff there is an activity or there is no custom view (C16_roundtrip_partial, C16_refuted); with custom views and no activity the blank line stops the reader and the custom views are lost."
 },
 "C25": {
  "note": "Exact for years 1000-9999: the date survives iff month, day, hour, minute and second all have two digits (C25_date_partial); for every other second the written text is too short and the loader panics (C25_refuted). C25_exact: over all years that chrono has, the date comes back exactly when the five fields have two digits and the year is 1000..9999 or -999..-100; other years panic, fail or come back as another date (C25_example_years). C25_calendar and C25_seconds pin the calendar (SpecDate.v: days counted from 1970-01-01)."
 },
 "C26": {
  "note": "Exact for every project (C26_exact): it comes back iff its date has two-digit fields and a year of four characters (1000..9999 or -999..-100); C26_roundtrip_partial and C26_refuted are its two sides. Whenever the file loads at all, every field but the date is unchanged (C26_other_fields)."
 },
 "C13": {
  "note": "Every finite f32 included: FltF32.v/JsonF32.v prove that the shortest decimal written by serde_json/ryu, read through one f64 multiplication or division and rounded to f32, is the f32 again (midpoint gaps checked by certificates in FltGapData.v)."
 },
 "C20": {
  "note": "Exact (C20_exact): the round trip holds iff at most the last layout has views and fabs are only present after such a layout. Two layouts of which a non-last one is non-empty never read back (C20_two_layouts_refuted); fabs after only empty layouts are lost (C20_fabs_lost_refuted). Floats: every finite f32."
 },
 "C22": {
  "note": "Exact (C22_exact): reading back never fails and gives the same screens iff every screen has some section and the screens with block containers come before those without. Otherwise the containers of later screens are lost (C22_refuted). Order of the screens: C22_order. What is lost in general: C22_lost (the containers of every screen from the first one without any on, and screens without any section)."
 },
 "C24": {
  "note": "No panic: File, Library, Resource, View, all pools (C24_data_files, C24_pools). Logic::parse panics on a header such as '@java_var' (C24_logic_refuted) and only on such headers (C24_logic_partial); Project::parse panics exactly when the object begins with readable members and a date text that cannot be cut into pieces or is not a second of the calendar, whatever follows (C24_project_partial is an equivalence; C24_project_refuted). Converting blocks panics on a spec with a bare '%', '%m' without a name, or '%c.x' with c of three bytes or more (C24_blocks_refuted), and only on such specs (C24_blocks_partial, C24_spec_partial)."
 },
 "C21": {
  "note": "For more blocks the id must not contain ':' (exactly: C21_more_block); see the property text."
 },
 "C31": {
  "note": "Exact (C31_partial): the tree comes back iff every nested argument and every sub stack is one leaf block (no blocks or boolean values inside), texts and names are printable, string values do not start with '@', and no block has a list type. Otherwise blocks are lost (C31_refuted). Bound: ids fit into an i32. What comes back in the other cases: C94."
 },
 "C33": {
  "note": "Exact: the two ways agree iff no argument of a menu parameter starts with '@' (C33_partial, C33_exact_partial); otherwise apply_args makes a block reference of it and parse does not (C33_refuted)."
 },
 "C35": {
  "note": "Exact: every type but the list types survives (C35_partial); a list type loses its type name and is then refused (C35_refuted)."
 },
 "C29": {
  "note": "No bound needed for the ids; C29_total (conversion succeeds iff there is no placeholder) assumes that the ids fit into an i32."
 },
 "C36": {
  "note": "Every forest with distinct ids other than 'root' comes back with the same shape, order, common and hidden attributes (C36_partial). The view-specific value is kept unless it is of another type than the raw view or sets a scroll view's orientation (C36_refuted)."
 },
 "C37": {
  "note": "Exact for distinct ids (C37_exact): unchanged up to order iff every view is consistent with its parent's reported type and its scroll orientation. Otherwise only parent_type and the scroll orientation differ (C37_partial, C37_refuted)."
 },
 "C39": {
  "note": "get_type_id is right exactly for types up to 11 (C39_partial); 12-18 are misreported (C39_refuted). The type that flattening writes is the raw one (C39_flattened)."
 },
 "C41": {
  "note": "All kinds and all raw types; which raw components are written back unchanged is exact (C41_exact)."
 },
 "C42": {
  "note": "Also the exact reading of a raw event, which raw events come back unchanged (C42_raw) and the container names (C42_container)."
 },
 "C43": {
  "note": "C43_kept: the container also appears if an event of the pool happens to have that container name. C43_code and C43_back_code say whose code a shared container holds."
 },
 "C45": {
  "note": "Exact condition: C45_exact with good_screen (SpecScreen.v) and C45_code. False in general (C45_refuted): container names of two events can coincide (view a / event b_c and view a_b / event c), and an onCreate event that is not first is moved."
 },
 "C46": {
  "note": "False for every project: the flag that says how resource files are found is turned round (C46_refuted). C46_partial: for a ready project (SpecProject.v) everything but resource files and icon comes back; with automatic resources, everything incl. the icon if there is no resource, and an error if there is any."
 },
 "C47": {
  "note": "Metadata, colours, libraries and the use_yn errors (exact: C47_use_yn). The custom icon flag follows the icon file, not the old flag (C47_custom_icon)."
 },
 "C48": {
  "note": "The taken check looks at images only: C48_partial, C48_refuted say exactly when an id gets two owners; outcomes of each call are exact (C48_outcomes, C48_put, C48_get, C48_remove)."
 },
 "C51": {
  "note": "False for every project (C51_refuted): files are dropped when they were there, and an empty set appears when they were not; new projects never get files (C51_new_refuted). The lists of resources are kept (C51_partial)."
 },
 "C52": {
  "note": "False for every activity name (C52_refuted). C52_partial: holds when the java name of the screen is the one that belongs to the activity."
 },
 "C53": {
  "note": "Including which entries count as without a layout (taken by an activity or an earlier custom view) and which error comes first (C53_missing)."
 },
 "C50": {
  "note": "Exact (C50_exact): the parsed project comes back (up to the order of the screens in the logic; see C50_partial for the order) iff the date has two-digit fields and a year of four characters (C25_exact), the file list is as in C16, the view as in C20, the logic as in C22 and the resource files are filed where reading files them. A project with two layouts of which a non-last one has a view never reads back (C50_refuted). Every date that chrono has; every finite f32."
 },
 "C61": {
  "note": "[logic] is a HashMap in the program; the model keeps insertion order (see C22) and the theorem is proved for both ways of inserting (mv)."
 },
 "C62": {
  "note": "C62_project is the exact statement; C62_order and C62_unknown are consequences. Values of other fields must be storable by serde (content_ok: numbers in range, nesting limit), as in the program."
 },
 "C64": {
  "note": "Proved for file and resource (line counted from 0, C64_file_partial, C64_resource_partial) and view headers (from 1, C64_view_partial). False elsewhere: library counts headers and foreign lines only and is never right (C64_library_refuted), a bad floating button is reported with the header as its content (C64_view_fab_refuted), logic reports the number of sections before (C64_logic_refuted)."
 },
 "C65": {
  "note": "C65_reads is the exact outcome (success, error, panic); C65_ok, C65_error and C65_panic spell it out."
 },
 "C66": {
  "note": "C66_reads is the exact outcome of the whole conversion in terms of the parsed project (SpecLoad.v), C66_screen, C66_distinct and C66_repeated are consequences."
 },
 "C67": {
  "note": "C67_reads is the exact outcome; C67_ok and C67_no_panic are consequences."
 },
 "C68": {
  "note": "C68_missing is exact for success and errors. The numbers of items without files come from rand::random and are a parameter of the model."
 },
 "C69": {
  "note": "C69_bits is exact for all seven tests; the others are consequences."
 },
 "C70": {
  "note": "The references of get_args_mut are modelled by the list of values written through them (set_args)."
 },
 "C71": {
  "note": "The wrapped iterator is an arbitrary step function; overflow checks are a parameter."
 },
 "C72": {
  "note": "SpecRecord.v states the meaning of every field without the decoders, SpecDate.v that of dates. SpecNumber.v states that of numbers: IEEE rounding as the nearest value to a rational number, and the digits, power of ten and roundings by which serde_json reads a number that is not a 64-bit integer."
 },
 "C73": {
  "note": "SpecJson.v is the grammar as relations. serde_json's recursion limit applies to buffered content only (project file, see M_Project.content_ok); ignored fields of records are skipped without a limit."
 },
 "C74": {
  "note": "serde_json computes one 64-bit operation on the first 64 bits of digits and a power of ten; for longer numbers the result may be off (C74_example_long). SpecNumber.v states the rounding independently of the model."
 },
 "C75": {
  "note": "The grammar and the nearest value are stated in SpecNumber.v (number_text). The saturation of the exponent in texts with more than 65536 digits is not modelled."
 },
 "C76": {
  "note": "shortest_decimal, positional and json_decimal in SpecNumber.v. The decimal is unique (C76_one): of two equally close ones std takes the larger, ryu the even one, which is what is known of these external implementations."
 },
 "C77": {
  "note": "E_Examples.v; exit code, standard output and files. Usage and error texts go to standard error, which is not modelled."
 },
 "C78": {
  "note": "lines as in SpecTools.v; derived Debug output is an arbitrary function (parse_file, parse_library, parse_project). C78_written uses the side conditions of C18, C20 and C22."
 },
 "C79": {
  "note": "stack_lines and same_shape in SpecTools.v. C79_resources: the program passes an empty list of resource files, so it panics on every project that lists a resource."
 },
 "C80": {
  "note": "SpecMessage.v says the chains of texts from the input; the numbers are counted as the code counts them (C64 says which lines they are). The texts of serde_json and std errors are not part of the chains. How std writes a path with {:?} is a parameter (dbg). Of the crypto errors only the text of CryptoError itself is modelled."
 },
 "C81": {
  "note": "word_fails, content_fails, spec_fails in SpecBlock.v; C81_id says which texts are ids."
 },
 "C82": {
  "note": "fails_block, fails_stack, fails_items and container_fails in SpecBlock.v; C82_one and C82_outcome: exactly one of reading and failure."
 },
 "C83": {
  "note": "loading_said, screen_said, blocks_said, layout_said in SpecMessage.v; how std quotes a string with {:?} is a parameter (dbg)."
 },
 "C84": {
  "note": "False: the attribute formats the literal 0.0, so the text for a taken id always says 0 (C84_refuted; C84_exact: right only for the id 0). The text for a missing file is right (C84_partial)."
 },
 "C85": {
  "note": "False: a project with a view in a layout that is not the last one written cannot be loaded from its own files (C85_refuted; the cause is in the view file, C20). It holds iff the files can be told apart (C85_exact, with the conditions on the API project in SpecSave.v: two-digit date parts and a year of four characters, a screen if there are custom views, only the last layout has views and it has some if there are floating buttons, no code after a screen without events and more blocks), also through the encrypted files (C85_encrypted_partial), and with automatic resources iff the icon lies in a folder for icons as well (C85_icon_exact). C85_order: loading does not depend on the order of the maps."
 },
 "C86": {
  "note": "For projects whose names and numbers fit the data files (SpecSave.project_fits). What remains with automatic resources is C86_automatic (SpecSave.icon_outcome for the icon and the resources). What remains is defined on API projects (SpecSave.remains)."
 },
 "C87": {
  "note": "SpecWrite.v describes the texts without the encoders of the model. The text is the only one that the description allows. Blocks, views and projects: colours of 32 bits, a project additionally numbers in the range of its types and a date chrono can represent."
 },
 "C88": {
  "note": "The text is the only one the description allows. Logic files: names that fit on a line (P_Logic.logic_typed)."
 },
 "C89": {
  "note": "For all arguments. The line of a new view and of a new component is the only one the description allows."
 },
 "C90": {
  "note": "SpecAes states FIPS-197 as relations (multiplication of polynomials modulo x^8+x^4+x^3+x+1, inverse and affine map, rows, columns, key schedule) without tables; the block cipher is proved for all keys and blocks, both directions. aes, block-modes and block-padding are external crates and are modelled by their documentation."
 },
 "C91": {
  "note": "The model of the string functions of std against RFC 3629 and Unicode, and loading of encrypted files in terms of it (with C90)."
 },
 "C92": {
  "note": "Strings of the model are lists of numbers; that they are Unicode scalar values is kept by reading (C92_read), converting (C92_try_from, C92_into) and writing (C92_written). C92_encrypted, C92_loaded and C92_loaded_files are the consequences for the encrypted files. Paths of resource files count as strings; non-Unicode paths are not modelled."
 },
 "C93": {
  "note": "C93_written is an equivalence with a description of the records that does not use the writing functions (SpecInto). C93_code, C93_views and C93_file_name are the same for code, views and file names alone; C93_panics and C93_never_fails the remaining outcomes. Beyond 2^31 - 10 blocks in one container ids no longer fit an i32 and the code panics."
 },
 "C94": {
  "note": "C94_back is an equivalence with block_back (SpecBack), defined on trees only; C94_no_panic and C94_settled the rest. Texts with spaces: C97. Texts with a leading '%' and strings with a leading '@': C99. Blocks in menus: C103. Not covered: strings of '@' and the number of a block (C32, C81)."
 },
 "C95": {
  "note": "C95_memory for the conversions, C95_files through the files, C95_automatic with automatic resources (if the code is given), C95_settled and C95_kept for doing it twice. The settled project is defined on API projects (SpecSettle.settle). Code outside SpecSettle.code_plain is not covered."
 },
 "C96": {
  "note": "C96_read: every block that reading gives, at any depth. C96_written, C96_unchanged: writing and reading it again, as equivalences. C96_loaded: a loaded project satisfies C95's conditions on code exactly if the rest of them holds (SpecResave.arranged); C96_memory and C96_files apply C95. The arrangement of a loaded project (distinct names, view ids and container names, logic stored for each screen) is not implied by loading and stays a condition."
 },
 "C97": {
  "note": "C97_written, C97_project, C97_raw: without any condition. C97_back, C97_memory, C97_files: what is read again, C94 and C95 with the condition on spaces weakened to the words (C97_condition: exactly C94's condition for the split tree). Words with a leading '%' are excluded, since they are read as parameters (C97_percent_example)."
 },
 "C98": {
  "note": "C98_view, C98_view_file, C98_blocks, C98_layout, C98_screen, C98_project: equivalences without any condition; C98_itself, C98_symmetric, C98_transitive follow. C98_parsed, C98_loaded, C98_again: what has been read. LinkedHashMap compares its entries in their order (ritelinked, not in the repository)."
 },
 "C49": {
  "note": "C49_path says what the type and name of a path are in terms of its text (SpecPath), C49_refused which error a path gives."
 },
 "C99": {
  "note": "C99_back: an equivalence, C94 and C97 without their conditions on texts and names. C99_names: without any condition. C99_word: one bad word is enough for a failure. C99_loose: for the code of C97 the conditions are those of C97. Excluded: strings that are '@' and an id (they refer to any raw block of the container) and blocks in menus (C103)."
 },
 "C100": {
  "note": "C100_goes_on, C100_kept, C100_settles: any number of conversions, without resources. C100_files: the same through the six files for projects that fit and are told apart there (conditions of C85, which are kept). C100_layout: layouts alone. C100_resources, C100_resource_files: with resources, the second time fails."
 },
 "C101": {
  "note": "The function that hands out blocks is any function with a state that answers or refuses; one that panics itself is not described."
 },
 "C102": {
  "note": "C102_variables, C102_list_variables, C102_components, C102_events, C102_more_blocks: outcome and lines left in the iterator, for all lines; C102_layout: the same for layouts; C102_used: the readers of the data files are these functions. The line counter is not wrapped at 2^32."
 },
 "C103": {
  "note": "C103_back and C103_any are equivalences with functions on trees (SpecMenu: stack_menus, then block_back as in C94); C103_no_panic, C103_settled and C103_lost the rest. Strings of '@' and the number of a block: C106."
 },
 "C104": {
  "note": "C104_memory for the conversions, C104_files through the files, C104_automatic with automatic resources (if the code can be read), C104_settled and C104_same for what has come back. Unlike C95 it does not say that code that cannot be read is an error rather than a panic: some words beginning with '%' panic, see C105. Left out is only code with strings of '@' and a number that all refer to blocks that would be lost (refs_lost, C106): it may come back with those blocks in the place of the strings."
 },
 "C105": {
  "note": "C105_words is an equivalence on specs; C105_code, C105_memory and C105_files the absence of panics. That the excluded words do panic: C24_blocks_refuted, C105_example. Blocks that are not read again are held to the condition too."
 },
 "C106": {
  "note": "C106_distinct is a necessary condition for every tree, C106_string its consequence for one string, C106_exact an equivalence for all other code, C106_all_read that this includes code of which all blocks are read again, C106_otherwise what is left: which tree is read when a string refers to a block that would be lost is said by C55 on the raw blocks, not by a function on trees (C106_example shows one)."
 },
 "C107": {
  "note": "C107_records and C107_files have no condition; C107_file, C107_view, C107_views and C107_project are equivalences; C107_logic is one for files whose names can be written (screen_plain in SpecReread.v), which is not necessary for coming back: a screen with '.java_' in its name and variables only does."
 },
 "C108": {
  "note": "C108_saved has no condition; C108_exact is an equivalence for projects whose logic has writable names (screen_plain in SpecReread.v); C108_settled is sufficient only."
 },
 "C109": {
  "note": "The only condition of C109_saved is the number of blocks of each event or moreblock; beyond it the numbers given to blocks would not fit an i32."
 }
}
