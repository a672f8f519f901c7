{
 "claims": [
  {
   "property": "C01",
   "status": "proved",
   "theorems": [
    "C01_decrypt_encrypt"
   ],
   "note": ""
  },
  {
   "property": "C02",
   "status": "proved",
   "theorems": [
    "C02_ciphertext_length",
    "C02_ciphertext_bytes",
    "C02_injective"
   ],
   "note": ""
  },
  {
   "property": "C03",
   "status": "proved",
   "theorems": [
    "C03_decrypt_accepts",
    "C03_decrypt_no_panic"
   ],
   "note": ""
  },
  {
   "property": "C04",
   "status": "proved",
   "theorems": [
    "C04_from_encrypted",
    "C04_from_encrypted_wo_res",
    "C04_encrypted_project",
    "C04_no_panic"
   ],
   "note": ""
  },
  {
   "property": "C05",
   "status": "partial",
   "theorems": [
    "C05_other_file",
    "C05_missing",
    "C05_in_place_refuted",
    "C05_in_place_partial",
    "C05_claim_refuted"
   ],
   "note": "Out-of-place part proved. In-place atomicity is false (std::fs::write truncates first): C05_in_place_refuted; what holds is C05_in_place_partial."
  },
  {
   "property": "C06",
   "status": "proved",
   "theorems": [
    "C06_components",
    "C06_own_components"
   ],
   "note": ""
  },
  {
   "property": "C07",
   "status": "proved",
   "theorems": [
    "C07_roundtrip",
    "C07_saturate"
   ],
   "note": ""
  },
  {
   "property": "C08",
   "status": "proved",
   "theorems": [
    "C08_parse_hex",
    "C08_rrggbb",
    "C08_aarrggbb",
    "C08_errors"
   ],
   "note": ""
  },
  {
   "property": "C09",
   "status": "proved",
   "theorems": [
    "C09_round_trip",
    "C09_exact",
    "C09_total"
   ],
   "note": ""
  },
  {
   "property": "C10",
   "status": "proved",
   "theorems": [
    "C10_options_roundtrip",
    "C10_options_low_bits",
    "C10_options_bits"
   ],
   "note": ""
  },
  {
   "property": "C11",
   "status": "proved",
   "theorems": [
    "C11_file_item",
    "C11_library_item",
    "C11_resource_item"
   ],
   "note": ""
  },
  {
   "property": "C12",
   "status": "proved",
   "theorems": [
    "C12_component",
    "C12_event",
    "C12_block",
    "C12_pools"
   ],
   "note": ""
  },
  {
   "property": "C13",
   "status": "proved",
   "theorems": [
    "C13_roundtrip"
   ],
   "note": "Every finite f32 included: FltF32.v/JsonF32.v prove that the shortest decimal written by serde_json/ryu, read through one f64 multiplication or division and rounded to f32, is the f32 again (midpoint gaps checked by certificates in FltGapData.v)."
  },
  {
   "property": "C14",
   "status": "proved",
   "theorems": [
    "C14_file_item",
    "C14_library_item",
    "C14_resource_item",
    "C14_component",
    "C14_event",
    "C14_block",
    "C14_view",
    "C14_view_nested"
   ],
   "note": ""
  },
  {
   "property": "C15",
   "status": "proved",
   "theorems": [
    "C15_one_line"
   ],
   "note": ""
  },
  {
   "property": "C16",
   "status": "partial",
   "theorems": [
    "C16_claim_refuted",
    "C16_roundtrip_partial",
    "C16_refuted"
   ],
   "note": "Exact: the round trip holds iff there is an activity or there is no custom view (C16_roundtrip_partial, C16_refuted); with custom views and no activity the blank line stops the reader and the custom views are lost."
  },
  {
   "property": "C17",
   "status": "proved",
   "theorems": [
    "C17_roundtrip"
   ],
   "note": ""
  },
  {
   "property": "C18",
   "status": "proved",
   "theorems": [
    "C18_roundtrip"
   ],
   "note": ""
  },
  {
   "property": "C19",
   "status": "proved",
   "theorems": [
    "C19_order_and_foreign_lines",
    "C19_missing_header"
   ],
   "note": ""
  },
  {
   "property": "C20",
   "status": "partial",
   "theorems": [
    "C20_claim_refuted",
    "C20_roundtrip_partial",
    "C20_two_layouts_refuted",
    "C20_fabs_lost_refuted",
    "C20_exact"
   ],
   "note": "Exact (C20_exact): the round trip holds iff at most the last layout has views and fabs are only present after such a layout. Two layouts of which a non-last one is non-empty never read back (C20_two_layouts_refuted); fabs after only empty layouts are lost (C20_fabs_lost_refuted). Floats: every finite f32."
  },
  {
   "property": "C21",
   "status": "proved",
   "theorems": [
    "C21_variable",
    "C21_list_variable",
    "C21_more_block",
    "C21_variable_pool",
    "C21_list_variable_pool",
    "C21_more_block_pool"
   ],
   "note": "For more blocks the id must not contain ':' (exactly: C21_more_block); see the property text."
  },
  {
   "property": "C22",
   "status": "partial",
   "theorems": [
    "C22_claim_refuted",
    "C22_roundtrip_partial",
    "C22_exact",
    "C22_order",
    "C22_refuted",
    "C22_lost"
   ],
   "note": "Exact (C22_exact): reading back never fails and gives the same screens iff every screen has some section and the screens with block containers come before those without. Otherwise the containers of later screens are lost (C22_refuted). Order of the screens: C22_order. What is lost in general: C22_lost (the containers of every screen from the first one without any on, and screens without any section)."
  },
  {
   "property": "C23",
   "status": "proved",
   "theorems": [
    "C23_variables",
    "C23_list_variables",
    "C23_more_blocks"
   ],
   "note": ""
  },
  {
   "property": "C24",
   "status": "partial",
   "theorems": [
    "C24_blocks_partial",
    "C24_spec_partial",
    "C24_blocks_refuted",
    "C24_claim_refuted",
    "C24_data_files",
    "C24_pools",
    "C24_logic_partial",
    "C24_logic_refuted",
    "C24_project_partial",
    "C24_project_refuted"
   ],
   "note": "No panic: File, Library, Resource, View, all pools (C24_data_files, C24_pools). Logic::parse panics on a header such as '@java_var' (C24_logic_refuted) and only on such headers (C24_logic_partial); Project::parse panics exactly when the object begins with readable members and a date text that cannot be cut into pieces or is not a second of the calendar, whatever follows (C24_project_partial is an equivalence; C24_project_refuted). Converting blocks panics on a spec with a bare '%', '%m' without a name, or '%c.x' with c of three bytes or more (C24_blocks_refuted), and only on such specs (C24_blocks_partial, C24_spec_partial)."
  },
  {
   "property": "C25",
   "status": "partial",
   "theorems": [
    "C25_claim_refuted",
    "C25_calendar",
    "C25_seconds",
    "C25_date_partial",
    "C25_refuted",
    "C25_exact"
   ],
   "note": "Exact for years 1000-9999: the date survives iff month, day, hour, minute and second all have two digits (C25_date_partial); for every other second the written text is too short and the loader panics (C25_refuted). C25_exact: over all years that chrono has, the date comes back exactly when the five fields have two digits and the year is 1000..9999 or -999..-100; other years panic, fail or come back as another date (C25_example_years). C25_calendar and C25_seconds pin the calendar (SpecDate.v: days counted from 1970-01-01)."
  },
  {
   "property": "C26",
   "status": "partial",
   "theorems": [
    "C26_roundtrip_partial",
    "C26_other_fields",
    "C26_refuted",
    "C26_exact"
   ],
   "note": "Exact for every project (C26_exact): it comes back iff its date has two-digit fields and a year of four characters (1000..9999 or -999..-100); C26_roundtrip_partial and C26_refuted are its two sides. Whenever the file loads at all, every field but the date is unchanged (C26_other_fields)."
  },
  {
   "property": "C27",
   "status": "proved",
   "theorems": [
    "C27_terminates",
    "C27_result"
   ],
   "note": ""
  },
  {
   "property": "C28",
   "status": "proved",
   "theorems": [
    "C28_linear"
   ],
   "note": ""
  },
  {
   "property": "C29",
   "status": "proved",
   "theorems": [
    "C29_ids",
    "C29_total",
    "C29_count"
   ],
   "note": "No bound needed for the ids; C29_total (conversion succeeds iff there is no placeholder) assumes that the ids fit into an i32."
  },
  {
   "property": "C30",
   "status": "proved",
   "theorems": [
    "C30_chain"
   ],
   "note": ""
  },
  {
   "property": "C31",
   "status": "partial",
   "theorems": [
    "C31_partial",
    "C31_refuted"
   ],
   "note": "Exact (C31_partial): the tree comes back iff every nested argument and every sub stack is one leaf block (no blocks or boolean values inside), texts and names are printable, string values do not start with '@', and no block has a list type. Otherwise blocks are lost (C31_refuted). Bound: ids fit into an i32. What comes back in the other cases: C94."
  },
  {
   "property": "C32",
   "status": "proved",
   "theorems": [
    "C32_print",
    "C32_parses",
    "C32_parse_printed"
   ],
   "note": ""
  },
  {
   "property": "C33",
   "status": "partial",
   "theorems": [
    "C33_partial",
    "C33_exact_partial",
    "C33_refuted"
   ],
   "note": "Exact: the two ways agree iff no argument of a menu parameter starts with '@' (C33_partial, C33_exact_partial); otherwise apply_args makes a block reference of it and parse does not (C33_refuted)."
  },
  {
   "property": "C34",
   "status": "proved",
   "theorems": [
    "C34_in_order",
    "C34_exact",
    "C34_too_few"
   ],
   "note": ""
  },
  {
   "property": "C35",
   "status": "partial",
   "theorems": [
    "C35_partial",
    "C35_refuted",
    "C35_claim_refuted"
   ],
   "note": "Exact: every type but the list types survives (C35_partial); a list type loses its type name and is then refused (C35_refuted)."
  },
  {
   "property": "C36",
   "status": "partial",
   "theorems": [
    "C36_partial",
    "C36_refuted"
   ],
   "note": "Every forest with distinct ids other than 'root' comes back with the same shape, order, common and hidden attributes (C36_partial). The view-specific value is kept unless it is of another type than the raw view or sets a scroll view's orientation (C36_refuted)."
  },
  {
   "property": "C37",
   "status": "partial",
   "theorems": [
    "C37_cast",
    "C37_partial",
    "C37_exact",
    "C37_refuted"
   ],
   "note": "Exact for distinct ids (C37_exact): unchanged up to order iff every view is consistent with its parent's reported type and its scroll orientation. Otherwise only parent_type and the scroll orientation differ (C37_partial, C37_refuted)."
  },
  {
   "property": "C38",
   "status": "proved",
   "theorems": [
    "C38_accepts",
    "C38_no_loss",
    "C38_count",
    "C38_error",
    "C38_no_panic"
   ],
   "note": ""
  },
  {
   "property": "C39",
   "status": "partial",
   "theorems": [
    "C39_partial",
    "C39_flattened",
    "C39_refuted"
   ],
   "note": "get_type_id is right exactly for types up to 11 (C39_partial); 12-18 are misreported (C39_refuted). The type that flattening writes is the raw one (C39_flattened)."
  },
  {
   "property": "C40",
   "status": "proved",
   "theorems": [
    "C40_find_id",
    "C40_found",
    "C40_find_id_mut",
    "C40_same"
   ],
   "note": ""
  },
  {
   "property": "C41",
   "status": "proved",
   "theorems": [
    "C41_round_trip",
    "C41_numbers",
    "C41_unknown",
    "C41_exact"
   ],
   "note": "All kinds and all raw types; which raw components are written back unchanged is exact (C41_exact)."
  },
  {
   "property": "C42",
   "status": "proved",
   "theorems": [
    "C42_round_trip",
    "C42_reading",
    "C42_raw",
    "C42_container",
    "C42_apply",
    "C42_applied"
   ],
   "note": "Also the exact reading of a raw event, which raw events come back unchanged (C42_raw) and the container names (C42_container)."
  },
  {
   "property": "C43",
   "status": "proved",
   "theorems": [
    "C43_events",
    "C43_count",
    "C43_code",
    "C43_back",
    "C43_back_code",
    "C43_kept"
   ],
   "note": "C43_kept: the container also appears if an event of the pool happens to have that container name. C43_code and C43_back_code say whose code a shared container holds."
  },
  {
   "property": "C44",
   "status": "proved",
   "theorems": [
    "C44_words",
    "C44_no_underscore",
    "C44_injective"
   ],
   "note": ""
  },
  {
   "property": "C45",
   "status": "partial",
   "theorems": [
    "C45_exact",
    "C45_code",
    "C45_partial",
    "C45_refuted"
   ],
   "note": "Exact condition: C45_exact with good_screen (SpecScreen.v) and C45_code. False in general (C45_refuted): container names of two events can coincide (view a / event b_c and view a_b / event c), and an onCreate event that is not first is moved."
  },
  {
   "property": "C46",
   "status": "partial",
   "theorems": [
    "C46_refuted",
    "C46_partial",
    "C46_claim_refuted"
   ],
   "note": "False for every project: the flag that says how resource files are found is turned round (C46_refuted). C46_partial: for a ready project (SpecProject.v) everything but resource files and icon comes back; with automatic resources, everything incl. the icon if there is no resource, and an error if there is any."
  },
  {
   "property": "C47",
   "status": "proved",
   "theorems": [
    "C47_metadata",
    "C47_custom_icon",
    "C47_libraries",
    "C47_use_yn"
   ],
   "note": "Metadata, colours, libraries and the use_yn errors (exact: C47_use_yn). The custom icon flag follows the icon file, not the old flag (C47_custom_icon)."
  },
  {
   "property": "C48",
   "status": "partial",
   "theorems": [
    "C48_claim_refuted",
    "C48_outcomes",
    "C48_put",
    "C48_get",
    "C48_remove",
    "C48_partial",
    "C48_remove_one",
    "C48_refuted",
    "C48_image_histories"
   ],
   "note": "The taken check looks at images only: C48_partial, C48_refuted say exactly when an id gets two owners; outcomes of each call are exact (C48_outcomes, C48_put, C48_get, C48_remove)."
  },
  {
   "property": "C49",
   "status": "proved",
   "theorems": [
    "C49_accepts_exactly_classified",
    "C49_filed_under_type_and_name",
    "C49_back_to_list",
    "C49_path",
    "C49_refused"
   ],
   "note": "C49_path says what the type and name of a path are in terms of its text (SpecPath), C49_refused which error a path gives."
  },
  {
   "property": "C50",
   "status": "partial",
   "theorems": [
    "C50_claim_refuted",
    "C50_written",
    "C50_exact",
    "C50_partial",
    "C50_refuted"
   ],
   "note": "Exact (C50_exact): the parsed project comes back (up to the order of the screens in the logic; see C50_partial for the order) iff the date has two-digit fields and a year of four characters (C25_exact), the file list is as in C16, the view as in C20, the logic as in C22 and the resource files are filed where reading files them. A project with two layouts of which a non-last one has a view never reads back (C50_refuted). Every date that chrono has; every finite f32."
  },
  {
   "property": "C51",
   "status": "partial",
   "theorems": [
    "C51_refuted",
    "C51_new_refuted",
    "C51_partial",
    "C51_claim_refuted"
   ],
   "note": "False for every project (C51_refuted): files are dropped when they were there, and an empty set appears when they were not; new projects never get files (C51_new_refuted). The lists of resources are kept (C51_partial)."
  },
  {
   "property": "C52",
   "status": "partial",
   "theorems": [
    "C52_refuted",
    "C52_partial",
    "C52_claim_refuted"
   ],
   "note": "False for every activity name (C52_refuted). C52_partial: holds when the java name of the screen is the one that belongs to the activity."
  },
  {
   "property": "C53",
   "status": "proved",
   "theorems": [
    "C53_screens",
    "C53_custom_views",
    "C53_missing"
   ],
   "note": "Including which entries count as without a layout (taken by an activity or an earlier custom view) and which error comes first (C53_missing)."
  },
  {
   "property": "C54",
   "status": "proved",
   "theorems": [
    "C54_unsigned",
    "C54_i32",
    "C54_f64"
   ],
   "note": ""
  },
  {
   "property": "C55",
   "status": "proved",
   "theorems": [
    "C55_reading"
   ],
   "note": ""
  },
  {
   "property": "C56",
   "status": "proved",
   "theorems": [
    "C56_display",
    "C56_injective"
   ],
   "note": ""
  },
  {
   "property": "C57",
   "status": "proved",
   "theorems": [
    "C57_file",
    "C57_file_error"
   ],
   "note": ""
  },
  {
   "property": "C58",
   "status": "proved",
   "theorems": [
    "C58_resource",
    "C58_resource_error"
   ],
   "note": ""
  },
  {
   "property": "C59",
   "status": "proved",
   "theorems": [
    "C59_library",
    "C59_library_error"
   ],
   "note": ""
  },
  {
   "property": "C60",
   "status": "proved",
   "theorems": [
    "C60_view",
    "C60_view_error"
   ],
   "note": ""
  },
  {
   "property": "C61",
   "status": "proved",
   "theorems": [
    "C61_logic",
    "C61_logic_stop"
   ],
   "note": "[logic] is a HashMap in the program; the model keeps insertion order (see C22) and the theorem is proved for both ways of inserting (mv)."
  },
  {
   "property": "C62",
   "status": "proved",
   "theorems": [
    "C62_project",
    "C62_order",
    "C62_unknown"
   ],
   "note": "C62_project is the exact statement; C62_order and C62_unknown are consequences. Values of other fields must be storable by serde (content_ok: numbers in range, nesting limit), as in the program."
  },
  {
   "property": "C63",
   "status": "proved",
   "theorems": [
    "C63_roundtrip",
    "C63_parse",
    "C63_errors"
   ],
   "note": ""
  },
  {
   "property": "C64",
   "status": "partial",
   "theorems": [
    "C64_claim_refuted",
    "C64_file_partial",
    "C64_resource_partial",
    "C64_library_refuted",
    "C64_view_partial",
    "C64_view_fab_refuted",
    "C64_logic_refuted"
   ],
   "note": "Proved for file and resource (line counted from 0, C64_file_partial, C64_resource_partial) and view headers (from 1, C64_view_partial). False elsewhere: library counts headers and foreign lines only and is never right (C64_library_refuted), a bad floating button is reported with the header as its content (C64_view_fab_refuted), logic reports the number of sections before (C64_logic_refuted)."
  },
  {
   "property": "C65",
   "status": "proved",
   "theorems": [
    "C65_reads",
    "C65_ok",
    "C65_error",
    "C65_panic",
    "C65_entry_points"
   ],
   "note": "C65_reads is the exact outcome (success, error, panic); C65_ok, C65_error and C65_panic spell it out."
  },
  {
   "property": "C66",
   "status": "proved",
   "theorems": [
    "C66_reads",
    "C66_screen",
    "C66_distinct",
    "C66_repeated",
    "C66_no_panic"
   ],
   "note": "C66_reads is the exact outcome of the whole conversion in terms of the parsed project (SpecLoad.v), C66_screen, C66_distinct and C66_repeated are consequences."
  },
  {
   "property": "C67",
   "status": "proved",
   "theorems": [
    "C67_no_panic",
    "C67_reads",
    "C67_ok"
   ],
   "note": "C67_reads is the exact outcome; C67_ok and C67_no_panic are consequences."
  },
  {
   "property": "C68",
   "status": "proved",
   "theorems": [
    "C68_files",
    "C68_missing",
    "C68_no_files"
   ],
   "note": "C68_missing is exact for success and errors. The numbers of items without files come from rand::random and are a parameter of the model."
  },
  {
   "property": "C69",
   "status": "proved",
   "theorems": [
    "C69_bits",
    "C69_implied",
    "C69_combined",
    "C69_none"
   ],
   "note": "C69_bits is exact for all seven tests; the others are consequences."
  },
  {
   "property": "C70",
   "status": "proved",
   "theorems": [
    "C70_builder",
    "C70_set",
    "C70_set_same",
    "C70_take",
    "C70_new",
    "C70_list_item"
   ],
   "note": "The references of get_args_mut are modelled by the list of values written through them (set_args)."
  },
  {
   "property": "C71",
   "status": "proved",
   "theorems": [
    "C71_counts",
    "C71_wraps",
    "C71_overflow",
    "C71_list"
   ],
   "note": "The wrapped iterator is an arbitrary step function; overflow checks are a parameter."
  },
  {
   "property": "C72",
   "status": "proved",
   "theorems": [
    "C72_file_item",
    "C72_library_item",
    "C72_resource_item",
    "C72_component",
    "C72_event",
    "C72_block",
    "C72_view",
    "C72_project"
   ],
   "note": "SpecRecord.v states the meaning of every field without the decoders, SpecDate.v that of dates. SpecNumber.v states that of numbers: IEEE rounding as the nearest value to a rational number, and the digits, power of ten and roundings by which serde_json reads a number that is not a 64-bit integer."
  },
  {
   "property": "C73",
   "status": "proved",
   "theorems": [
    "C73_text",
    "C73_unique",
    "C73_lines"
   ],
   "note": "SpecJson.v is the grammar as relations. serde_json's recursion limit applies to buffered content only (project file, see M_Project.content_ok); ignored fields of records are skipped without a limit."
  },
  {
   "property": "C74",
   "status": "proved",
   "theorems": [
    "C74_formats",
    "C74_integer",
    "C74_decimal",
    "C74_double",
    "C74_color",
    "C74_view",
    "C74_block"
   ],
   "note": "serde_json computes one 64-bit operation on the first 64 bits of digits and a power of ten; for longer numbers the result may be off (C74_example_long). SpecNumber.v states the rounding independently of the model."
  },
  {
   "property": "C75",
   "status": "proved",
   "theorems": [
    "C75_number",
    "C75_argument",
    "C75_unique",
    "C75_written"
   ],
   "note": "The grammar and the nearest value are stated in SpecNumber.v (number_text). The saturation of the exponent in texts with more than 65536 digits is not modelled."
  },
  {
   "property": "C76",
   "status": "proved",
   "theorems": [
    "C76_argument",
    "C76_special",
    "C76_text",
    "C76_digits",
    "C76_one",
    "C76_view"
   ],
   "note": "shortest_decimal, positional and json_decimal in SpecNumber.v. The decimal is unique (C76_one): of two equally close ones std takes the larger, ryu the even one, which is what is known of these external implementations."
  },
  {
   "property": "C77",
   "status": "proved",
   "theorems": [
    "C77_encrypt",
    "C77_missing",
    "C77_usage",
    "C77_decrypt",
    "C77_there_and_back",
    "C77_killed"
   ],
   "note": "E_Examples.v; exit code, standard output and files. Usage and error texts go to standard error, which is not modelled."
  },
  {
   "property": "C78",
   "status": "proved",
   "theorems": [
    "C78_resource",
    "C78_view",
    "C78_logic",
    "C78_file",
    "C78_library",
    "C78_project",
    "C78_written"
   ],
   "note": "lines as in SpecTools.v; derived Debug output is an arbitrary function (parse_file, parse_library, parse_project). C78_written uses the side conditions of C18, C20 and C22."
  },
  {
   "property": "C79",
   "status": "proved",
   "theorems": [
    "C79_runs",
    "C79_resources",
    "C79_faithful"
   ],
   "note": "stack_lines and same_shape in SpecTools.v. C79_resources: the program passes an empty list of resource files, so it panics on every project that lists a resource."
  },
  {
   "property": "C80",
   "status": "proved",
   "theorems": [
    "C80_file",
    "C80_resource",
    "C80_library",
    "C80_view",
    "C80_logic",
    "C80_res_files",
    "C80_project",
    "C80_encrypted",
    "C80_crypto"
   ],
   "note": "SpecMessage.v says the chains of texts from the input; the numbers are counted as the code counts them (C64 says which lines they are). The texts of serde_json and std errors are not part of the chains. How std writes a path with {:?} is a parameter (dbg). Of the crypto errors only the text of CryptoError itself is modelled."
  },
  {
   "property": "C81",
   "status": "proved",
   "theorems": [
    "C81_error",
    "C81_panic",
    "C81_spec_error",
    "C81_spec_panic",
    "C81_id"
   ],
   "note": "word_fails, content_fails, spec_fails in SpecBlock.v; C81_id says which texts are ids."
  },
  {
   "property": "C82",
   "status": "proved",
   "theorems": [
    "C82_error",
    "C82_panic",
    "C82_outcome",
    "C82_one"
   ],
   "note": "fails_block, fails_stack, fails_items and container_fails in SpecBlock.v; C82_one and C82_outcome: exactly one of reading and failure."
  },
  {
   "property": "C83",
   "status": "proved",
   "theorems": [
    "C83_blocks",
    "C83_layout",
    "C83_screen",
    "C83_view_type",
    "C83_colour",
    "C83_project"
   ],
   "note": "loading_said, screen_said, blocks_said, layout_said in SpecMessage.v; how std quotes a string with {:?} is a parameter (dbg)."
  },
  {
   "property": "C84",
   "status": "partial",
   "theorems": [
    "C84_partial",
    "C84_exact",
    "C84_refuted"
   ],
   "note": "False: the attribute formats the literal 0.0, so the text for a taken id always says 0 (C84_refuted; C84_exact: right only for the id 0). The text for a missing file is right (C84_partial)."
  },
  {
   "property": "C85",
   "status": "partial",
   "theorems": [
    "C85_claim_refuted",
    "C85_order",
    "C85_partial",
    "C85_exact",
    "C85_encrypted_partial",
    "C85_icon_exact",
    "C85_refuted"
   ],
   "note": "False: a project with a view in a layout that is not the last one written cannot be loaded from its own files (C85_refuted; the cause is in the view file, C20). It holds iff the files can be told apart (C85_exact, with the conditions on the API project in SpecSave.v: two-digit date parts and a year of four characters, a screen if there are custom views, only the last layout has views and it has some if there are floating buttons, no code after a screen without events and more blocks), also through the encrypted files (C85_encrypted_partial), and with automatic resources iff the icon lies in a folder for icons as well (C85_icon_exact). C85_order: loading does not depend on the order of the maps."
  },
  {
   "property": "C86",
   "status": "proved",
   "theorems": [
    "C86_outcome",
    "C86_automatic",
    "C86_dates",
    "C86_settled"
   ],
   "note": "For projects whose names and numbers fit the data files (SpecSave.project_fits). What remains with automatic resources is C86_automatic (SpecSave.icon_outcome for the icon and the resources). What remains is defined on API projects (SpecSave.remains)."
  },
  {
   "property": "C87",
   "status": "proved",
   "theorems": [
    "C87_files",
    "C87_libraries",
    "C87_resources",
    "C87_components",
    "C87_events",
    "C87_blocks",
    "C87_variables",
    "C87_views",
    "C87_project"
   ],
   "note": "SpecWrite.v describes the texts without the encoders of the model. The text is the only one that the description allows. Blocks, views and projects: colours of 32 bits, a project additionally numbers in the range of its types and a date chrono can represent."
  },
  {
   "property": "C88",
   "status": "proved",
   "theorems": [
    "C88_file",
    "C88_resource",
    "C88_library",
    "C88_view",
    "C88_logic"
   ],
   "note": "The text is the only one the description allows. Logic files: names that fit on a line (P_Logic.logic_typed)."
  },
  {
   "property": "C89",
   "status": "proved",
   "theorems": [
    "C89_view",
    "C89_components",
    "C89_blocks",
    "C89_empty",
    "C89_colours",
    "C89_project"
   ],
   "note": "For all arguments. The line of a new view and of a new component is the only one the description allows."
  },
  {
   "property": "C90",
   "status": "proved",
   "theorems": [
    "C90_block",
    "C90_inverse",
    "C90_encrypt",
    "C90_decrypt",
    "C90_files"
   ],
   "note": "SpecAes states FIPS-197 as relations (multiplication of polynomials modulo x^8+x^4+x^3+x+1, inverse and affine map, rows, columns, key schedule) without tables; the block cipher is proved for all keys and blocks, both directions. aes, block-modes and block-padding are external crates and are modelled by their documentation."
  },
  {
   "property": "C91",
   "status": "proved",
   "theorems": [
    "C91_utf8",
    "C91_encode",
    "C91_read",
    "C91_length",
    "C91_slice",
    "C91_white",
    "C91_trim",
    "C91_split",
    "C91_split_once",
    "C91_signed"
   ],
   "note": "The model of the string functions of std against RFC 3629 and Unicode, and loading of encrypted files in terms of it (with C90)."
  },
  {
   "property": "C92",
   "status": "proved",
   "theorems": [
    "C92_read",
    "C92_try_from",
    "C92_into",
    "C92_written",
    "C92_encrypted",
    "C92_loaded",
    "C92_loaded_files"
   ],
   "note": "Strings of the model are lists of numbers; that they are Unicode scalar values is kept by reading (C92_read), converting (C92_try_from, C92_into) and writing (C92_written). C92_encrypted, C92_loaded and C92_loaded_files are the consequences for the encrypted files. Paths of resource files count as strings; non-Unicode paths are not modelled."
  },
  {
   "property": "C93",
   "status": "proved",
   "theorems": [
    "C93_written",
    "C93_code",
    "C93_views",
    "C93_views_default",
    "C93_more_block",
    "C93_file_name",
    "C93_panics",
    "C93_never_fails"
   ],
   "note": "C93_written is an equivalence with a description of the records that does not use the writing functions (SpecInto). C93_code, C93_views and C93_file_name are the same for code, views and file names alone; C93_panics and C93_never_fails the remaining outcomes. Beyond 2^31 - 10 blocks in one container ids no longer fit an i32 and the code panics."
  },
  {
   "property": "C94",
   "status": "proved",
   "theorems": [
    "C94_back",
    "C94_no_panic",
    "C94_settled"
   ],
   "note": "C94_back is an equivalence with block_back (SpecBack), defined on trees only; C94_no_panic and C94_settled the rest. Texts with spaces: C97. Texts with a leading '%' and strings with a leading '@': C99. Blocks in menus: C103. Not covered: strings of '@' and the number of a block (C32, C81)."
  },
  {
   "property": "C95",
   "status": "proved",
   "theorems": [
    "C95_memory",
    "C95_files",
    "C95_automatic",
    "C95_settled",
    "C95_kept"
   ],
   "note": "C95_memory for the conversions, C95_files through the files, C95_automatic with automatic resources (if the code is given), C95_settled and C95_kept for doing it twice. The settled project is defined on API projects (SpecSettle.settle). Code outside SpecSettle.code_plain is not covered."
  },
  {
   "property": "C96",
   "status": "proved",
   "theorems": [
    "C96_read",
    "C96_written",
    "C96_unchanged",
    "C96_loaded",
    "C96_memory",
    "C96_files"
   ],
   "note": "C96_read: every block that reading gives, at any depth. C96_written, C96_unchanged: writing and reading it again, as equivalences. C96_loaded: a loaded project satisfies C95's conditions on code exactly if the rest of them holds (SpecResave.arranged); C96_memory and C96_files apply C95. The arrangement of a loaded project (distinct names, view ids and container names, logic stored for each screen) is not implied by loading and stays a condition."
  },
  {
   "property": "C97",
   "status": "proved",
   "theorems": [
    "C97_written",
    "C97_back",
    "C97_condition",
    "C97_project",
    "C97_raw",
    "C97_memory",
    "C97_files"
   ],
   "note": "C97_written, C97_project, C97_raw: without any condition. C97_back, C97_memory, C97_files: what is read again, C94 and C95 with the condition on spaces weakened to the words (C97_condition: exactly C94's condition for the split tree). Words with a leading '%' are excluded, since they are read as parameters (C97_percent_example)."
  },
  {
   "property": "C98",
   "status": "proved",
   "theorems": [
    "C98_view",
    "C98_view_file",
    "C98_blocks",
    "C98_layout",
    "C98_screen",
    "C98_project",
    "C98_itself",
    "C98_symmetric",
    "C98_transitive",
    "C98_parsed",
    "C98_loaded",
    "C98_again"
   ],
   "note": "C98_view, C98_view_file, C98_blocks, C98_layout, C98_screen, C98_project: equivalences without any condition; C98_itself, C98_symmetric, C98_transitive follow. C98_parsed, C98_loaded, C98_again: what has been read. LinkedHashMap compares its entries in their order (ritelinked, not in the repository)."
  },
  {
   "property": "C99",
   "status": "proved",
   "theorems": [
    "C99_back",
    "C99_names",
    "C99_word",
    "C99_loose"
   ],
   "note": "C99_back: an equivalence, C94 and C97 without their conditions on texts and names. C99_names: without any condition. C99_word: one bad word is enough for a failure. C99_loose: for the code of C97 the conditions are those of C97. Excluded: strings that are '@' and an id (they refer to any raw block of the container) and blocks in menus (C103)."
  },
  {
   "property": "C100",
   "status": "proved",
   "theorems": [
    "C100_layout",
    "C100_goes_on",
    "C100_kept",
    "C100_settles",
    "C100_files",
    "C100_resources",
    "C100_resource_files"
   ],
   "note": "C100_goes_on, C100_kept, C100_settles: any number of conversions, without resources. C100_files: the same through the six files for projects that fit and are told apart there (conditions of C85, which are kept). C100_layout: layouts alone. C100_resources, C100_resource_files: with resources, the second time fails."
  },
  {
   "property": "C101",
   "status": "proved",
   "theorems": [
    "C101_arguments",
    "C101_arguments_error",
    "C101_arguments_no_panic",
    "C101_filled",
    "C101_blocks",
    "C101_blocks_error",
    "C101_blocks_outcome"
   ],
   "note": "The function that hands out blocks is any function with a state that answers or refuses; one that panics itself is not described."
  },
  {
   "property": "C102",
   "status": "proved",
   "theorems": [
    "C102_variables",
    "C102_list_variables",
    "C102_components",
    "C102_events",
    "C102_more_blocks",
    "C102_layout",
    "C102_used"
   ],
   "note": "C102_variables, C102_list_variables, C102_components, C102_events, C102_more_blocks: outcome and lines left in the iterator, for all lines; C102_layout: the same for layouts; C102_used: the readers of the data files are these functions. The line counter is not wrapped at 2^32."
  },
  {
   "property": "C103",
   "status": "proved",
   "theorems": [
    "C103_back",
    "C103_no_panic",
    "C103_settled",
    "C103_lost",
    "C103_any"
   ],
   "note": "C103_back and C103_any are equivalences with functions on trees (SpecMenu: stack_menus, then block_back as in C94); C103_no_panic, C103_settled and C103_lost the rest. Strings of '@' and the number of a block: C106."
  },
  {
   "property": "C104",
   "status": "proved",
   "theorems": [
    "C104_memory",
    "C104_files",
    "C104_automatic",
    "C104_settled",
    "C104_same"
   ],
   "note": "C104_memory for the conversions, C104_files through the files, C104_automatic with automatic resources (if the code can be read), C104_settled and C104_same for what has come back. Unlike C95 it does not say that code that cannot be read is an error rather than a panic: some words beginning with '%' panic, see C105. Left out is only code with strings of '@' and a number that all refer to blocks that would be lost (refs_lost, C106): it may come back with those blocks in the place of the strings."
  },
  {
   "property": "C105",
   "status": "proved",
   "theorems": [
    "C105_words",
    "C105_code",
    "C105_memory",
    "C105_files"
   ],
   "note": "C105_words is an equivalence on specs; C105_code, C105_memory and C105_files the absence of panics. That the excluded words do panic: C24_blocks_refuted, C105_example. Blocks that are not read again are held to the condition too."
  },
  {
   "property": "C106",
   "status": "proved",
   "theorems": [
    "C106_distinct",
    "C106_string",
    "C106_exact",
    "C106_all_read",
    "C106_otherwise"
   ],
   "note": "C106_distinct is a necessary condition for every tree, C106_string its consequence for one string, C106_exact an equivalence for all other code, C106_all_read that this includes code of which all blocks are read again, C106_otherwise what is left: which tree is read when a string refers to a block that would be lost is said by C55 on the raw blocks, not by a function on trees (C106_example shows one)."
  },
  {
   "property": "C107",
   "status": "proved",
   "theorems": [
    "C107_records",
    "C107_files",
    "C107_file",
    "C107_view",
    "C107_views",
    "C107_logic",
    "C107_project"
   ],
   "note": "C107_records and C107_files have no condition; C107_file, C107_view, C107_views and C107_project are equivalences; C107_logic is one for files whose names can be written (screen_plain in SpecReread.v), which is not necessary for coming back: a screen with '.java_' in its name and variables only does."
  },
  {
   "property": "C108",
   "status": "proved",
   "theorems": [
    "C108_saved",
    "C108_exact",
    "C108_settled"
   ],
   "note": "C108_saved has no condition; C108_exact is an equivalence for projects whose logic has writable names (screen_plain in SpecReread.v); C108_settled is sufficient only."
  },
  {
   "property": "C109",
   "status": "proved",
   "theorems": [
    "C109_saved",
    "C109_resources",
    "C109_again",
    "C109_files",
    "C109_names"
   ],
   "note": "The only condition of C109_saved is the number of blocks of each event or moreblock; beyond it the numbers given to blocks would not fit an i32."
  },
  {
   "property": "C110",
   "status": "proved",
   "theorems": [
    "C110_again",
    "C110_lost"
   ],
   "note": ""
  }
 ]
}