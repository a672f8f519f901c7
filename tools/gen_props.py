#!/usr/bin/env python3
"""Generates /verif/properties.jsonl (one JSON object per line)."""
import json, os
P=[]
def p(id,title,statement,quantifier,why,anchors):
    P.append(dict(id=id,title=title,statement=statement,quantifier=quantifier,why_tests_cant=why,anchors=anchors))

# ---- crypto / raw files -----------------------------------------------------
p("C01","Encrypt then decrypt is the identity",
  "For every byte string `data`, `decrypt_sw_encrypted(&encrypt_sw(data))` returns `Ok(data)`, including the empty string and lengths that are multiples of 16.",
  "all byte strings of every length",
  "Byte strings are unbounded and the padding edge cases depend on the length modulo 16 and the content of the last block.",
  ["src/lib.rs: encrypt_sw, decrypt_sw_encrypted, KEY"])
p("C02","Ciphertext shape and injectivity",
  "`encrypt_sw(data)` always has length `(len(data)/16+1)*16`, all outputs are bytes, and two different plaintexts never encrypt to the same ciphertext.",
  "all byte strings / all pairs of byte strings",
  "Injectivity ranges over all pairs of inputs.",
  ["src/lib.rs: encrypt_sw"])
p("C03","Decryption accepts exactly correctly padded ciphertexts",
  "`decrypt_sw_encrypted` never panics; it fails on the empty input, on every length that is not a multiple of 16, and whenever the CBC-decrypted bytes do not end in n copies of the byte n (1 <= n <= length); otherwise it returns exactly the bytes before that padding.",
  "all byte strings",
  "Malformed inputs are unbounded; a test can only try a handful of corruptions.",
  ["src/lib.rs: decrypt_sw_encrypted, CryptoError"])
p("C04","Loading six encrypted data files returns the six texts",
  "If the six data files are the encryptions of the UTF-8 encodings of six strings, `RawSketchwareProject::from_encrypted(_wo_res)` returns Ok with exactly these six strings in the right fields; if any one of the six fails to decrypt or is not UTF-8 the whole call is an Err, never a partially filled project.",
  "all six-tuples of Unicode strings / of byte strings",
  "Every Unicode scalar value sequence of every length, and the product of six independent failure positions.",
  ["src/parser/mod.rs: RawSketchwareProject::from_encrypted, from_encrypted_wo_res"])
p("C05","Encrypting a file in place / to another file, at every crash point",
  "`encrypt_sw_file_to_file(f, Some(out))` with out != f leaves `f` untouched at every crash point, and on completion `out` decrypts to the old content of `f`. Users rely on the same for in-place encryption (out = None): at each crash point the file holds the old plaintext or the full ciphertext.",
  "all file contents, all crash points of the truncate/write sequence",
  "Crash points cannot be enumerated by unit tests.",
  ["src/lib.rs: encrypt_sw_file_to_file, encrypt_sw_file, decrypt_sw_file"])
# ---- colours ---------------------------------------------------------------
p("C06","Colour components survive construction",
  "For all bytes a, r, g, b: `from_argb(a,r,g,b)` has alpha a, red r, green g, blue b; `from_rgb(r,g,b)` equals `from_argb(255,r,g,b)`; and every colour equals `from_argb` of its own components.",
  "all 2^32 component tuples / colours",
  "2^32 cases, and the accessor masks are 9 bits wide so only truncation makes them right.",
  ["src/color.rs: Color::from_rgb, from_argb, alpha, red, green, blue, rgb"])
p("C07","Colour JSON round trip and saturation",
  "Serialising any colour gives a JSON integer in i32 range which deserialises to the same colour; any JSON integer deserialises to the colour whose bits are that integer clamped to i32 range (u64 values >= 2^63 are first reinterpreted as negative).",
  "all 2^32 colours; all JSON integers",
  "The domain is too large to enumerate and the path goes through f64 and saturating casts.",
  ["src/color.rs: Serialize for Color, Deserialize for Color"])
p("C08","Hex colour parsing",
  "`parse_hex` of six hex digits RRGGBB (any case) gives the opaque colour with these components; of eight hex digits AARRGGBB gives that colour with that alpha; a string containing a non-hex character (other than one leading '+') or denoting a number above 2^32-1 is an error.",
  "all strings",
  "Strings are unbounded.",
  ["src/color.rs: Color::parse_hex"])
p("C09","Block category and colour correspond one to one",
  "Converting a category into a colour and back gives the category; `Block::category` succeeds exactly when the RGB part is one of the nine category colours, whatever the alpha.",
  "all categories; all 2^32 colours",
  "2^32 colours.",
  ["src/api/block.rs: BlockCategory, Block::category"])
# ---- single-line records ---------------------------------------------------
p("C10","Activity option bits",
  "`from_num(o.as_num()) == o` for all option sets, `as_num` is below 16, and for every byte n `from_num(n).as_num()` equals n's low four bits.",
  "all option sets; all bytes",
  "Must hold for every byte, including ones with unknown high bits set.",
  ["src/parser/file.rs: ActivityOptions::from_num, as_num"])
p("C11","File, library and resource items survive reconstruct/parse",
  "For every `FileItem`, `LibraryItem`, `ResourceItem` value, `parse(reconstruct(x))` is `Ok(x)`.",
  "all field values: arbitrary Unicode strings (quotes, backslashes, control characters, newlines), all bytes, all list lengths",
  "Strings and lists are unbounded and need escaping.",
  ["src/parser/file.rs: FileItem", "src/parser/library.rs: LibraryItem, AdUnit", "src/parser/resource.rs: ResourceItem"])
p("C12","Component, event and block lines survive reconstruct/parse",
  "For every `Component`, `Event` and raw `Block` value, `parse(reconstruct(x))` is `Ok(x)`.",
  "all field values",
  "Strings, parameter lists and the 2^32 ids/colours are unbounded for a test.",
  ["src/parser/logic.rs: component::Component, event::Event, Block"])
p("C13","View lines survive reconstruct/parse",
  "For every `AndroidView` whose f32 fields are finite and whose size fields are not `Fixed(-1)`/`Fixed(-2)`, `parse(reconstruct(v))` is `Ok(v)` (optional parent / preId / preParent / resName fields included, present or absent).",
  "all field values",
  "31 fields plus three nested records, strings and floats.",
  ["src/parser/view.rs: models::AndroidView, ImageConfig, LayoutConfig, TextConfig, layout::Size"])
p("C14","Records do not depend on field order or on unknown fields",
  "Parsing a record line gives the same result when the JSON object's fields are reordered, or when fields with unknown names are added anywhere; a duplicated known field or a missing required field is an error.",
  "all permutations and all additional fields of all record objects",
  "Permutations and unknown fields are unbounded.",
  ["src/parser/file.rs: FileItem", "src/parser/logic.rs: Block, Event, component::Component", "src/parser/resource.rs: ResourceItem", "src/parser/library.rs: LibraryItem"])
p("C15","A reconstructed record is one clean line",
  "The text of every reconstructed record contains no newline, starts with '{', ends with '}' and so is not affected by `trim` and never looks like a header or like a blank line.",
  "all records (all field values)",
  "Field contents are arbitrary strings including newlines.",
  ["src/parser/file.rs", "src/parser/library.rs", "src/parser/resource.rs", "src/parser/logic.rs", "src/parser/view.rs"])
# ---- sections --------------------------------------------------------------
p("C16","`file` data file round trip",
  "For every `File`, `File::parse(file.reconstruct())` is Ok of the same activities and custom views in the same order.",
  "all lists of file items",
  "List lengths and contents unbounded; empty lists are the interesting case.",
  ["src/parser/file.rs: File::parse, File::reconstruct"])
p("C17","`library` data file round trip",
  "For every `Library`, `Library::parse(library.reconstruct())` is Ok of the same library.",
  "all libraries",
  "Unbounded field contents.",
  ["src/parser/library.rs: Library::parse, Library::reconstruct"])
p("C18","`resource` data file round trip",
  "For every `Resource`, `Resource::parse(resource.reconstruct())` is Ok of the same images, sounds and fonts in the same order (also when sections are empty).",
  "all resource lists",
  "List lengths and contents unbounded.",
  ["src/parser/resource.rs: Resource::parse, Resource::reconstruct"])
p("C19","`library` parsing does not depend on section order or foreign lines",
  "A library file whose four sections appear in any order, with arbitrary lines that are not section headers between the sections, parses to the same library; if one of the four headers never occurs the result is an error.",
  "all orders, all interleaved foreign lines, all item values",
  "Unbounded foreign lines.",
  ["src/parser/library.rs: Library::parse"])
p("C20","`view` data file round trip",
  "For every `View` with any number of layouts and fabs, `View::parse(view.reconstruct())` is Ok of the same layouts and fabs in the same order.",
  "all views (any number of layouts, any number of views per layout, any fabs)",
  "Numbers of layouts and views unbounded; the repository's only test has exactly one layout.",
  ["src/parser/view.rs: View::parse, View::reconstruct, Layout::parse_iter, Layout::reconstruct"])
p("C21","Variable, list variable and moreblock pools round trip",
  "Every variable (any name) survives reconstruct/parse; pools whose names contain no newline and whose last line does not end in whitespace parse back to the same pool in the same order (for more blocks also: no ':' in an id, no newline in a spec, the first id does not start with whitespace).",
  "all names, all pool sizes",
  "Names and pool sizes unbounded.",
  ["src/parser/logic.rs: variable, list_variable, more_block"])
p("C22","`logic` data file round trip",
  "For every `Logic`, `Logic::parse(logic.reconstruct())` is Ok of the same screens, each with the same pools and block containers.",
  "all logics: any number of screens, pools, containers (possibly empty), blocks",
  "Unbounded structure; blank-line framing depends on which sections are empty.",
  ["src/parser/logic.rs: Logic::parse, Logic::reconstruct"])
p("C23","Repeated names in a pool: the last one wins, exactly once",
  "Parsing a variable / list variable / moreblock pool with repeated names yields one entry per distinct name, keyed by its own name, holding the last definition.",
  "all pool texts",
  "All interleavings of repeated names.",
  ["src/parser/logic.rs: VariablePool::parse_iter, ListVariablePool::parse_iter, MoreBlockPool::parse_iter"])
p("C24","Parsers of untrusted text do not panic",
  "`File::parse`, `Library::parse`, `Resource::parse`, `View::parse` and the pool parsers return Ok or Err on every string. Users expect the same of `Logic::parse`, `Project::parse` and of converting blocks.",
  "all Unicode strings",
  "A corrupted file can be any string.",
  ["src/parser/file.rs", "src/parser/library.rs", "src/parser/resource.rs", "src/parser/view.rs", "src/parser/logic.rs: Logic::parse", "src/parser/project.rs", "src/parser/serde_util.rs"])
p("C25","Creation date survives save and load",
  "A project whose `date_created` is any second of the years 1000-9999 reads back with the same `date_created` after reconstruct and parse.",
  "all timestamps in those years",
  "About 2.8*10^11 timestamps; depends on the decimal width of six fields.",
  ["src/parser/serde_util.rs: date_to_timestamp"])
p("C26","`project` data file round trip",
  "For every `Project`, `Project::parse(project.reconstruct())` is Ok of the same project (all ids, version codes, names, colours).",
  "all field values",
  "Unbounded.",
  ["src/parser/project.rs: Project"])
# ---- blocks ----------------------------------------------------------------
p("C27","Block conversion terminates on every pointer graph",
  "`Blocks::try_from(container)` returns (Ok, Err or panic) for every container, including cyclic, shared or dangling next/substack/parameter references; it never loops forever.",
  "all containers (arbitrary pointer graphs)",
  "Cycles can have any length and shape.",
  ["src/api/block.rs: TryFrom<BlockContainer> for Blocks"])
p("C28","No raw block is used twice",
  "In a successful conversion every raw block contributes to at most one place of the resulting tree: the raw blocks used are pairwise distinct, and the number of blocks in the tree is at most the number of raw blocks used, which is at most the number of raw blocks.",
  "all containers",
  "Arbitrary pointer graphs.",
  ["src/api/block.rs: TryFrom<BlockContainer> for Blocks"])
p("C29","Generated block ids are fresh, consecutive and ordered",
  "Converting any `Blocks` into a `BlockContainer` numbers the emitted raw blocks 10, 11, 12, ... in emission order; in particular ids never collide.",
  "all block trees",
  "Trees are unbounded.",
  ["src/api/block.rs: Blocks::to_block_container, Into<BlockContainer>"])
p("C30","Generated next pointers reproduce the top-level order",
  "Following `next_block` from the first emitted block of a converted `Blocks` visits exactly the top-level blocks in order and then reaches -1.",
  "all block trees",
  "Trees are unbounded.",
  ["src/api/block.rs: Blocks::to_block_container"])
p("C31","Blocks survive conversion to a container and back",
  "For every `Blocks` value built from well-formed contents, `Blocks::try_from(BlockContainer::from(blocks))` is Ok of the same blocks, with nested arguments and sub stacks of any size.",
  "all block trees",
  "Nesting and sub stack lengths unbounded; the only test never checks the result.",
  ["src/api/block.rs: Blocks::to_block_container, convert_block, process_content"])
p("C32","Block specs survive parsing and printing",
  "Printing a parsed spec gives the same text for every spec whose parameters are `%s %b %d` optionally named, or named `%m.x`; conversely parsing the printed spec of a non-empty content made of space-free texts that do not start with '%' and such parameters gives the same content (and of no other content).",
  "all specs / contents",
  "Strings unbounded.",
  ["src/api/block.rs: BlockContent::parse_wo_params, ToString for BlockContent"])
p("C33","Parsing with arguments equals parsing then applying arguments",
  "`BlockContent::parse(spec, args)` succeeds with the same content as `parse_wo_params(spec)` followed by `apply_args(args)`.",
  "all specs and argument lists",
  "Two unbounded inputs.",
  ["src/api/block.rs: BlockContent::parse, parse_wo_params, apply_args"])
p("C34","Arguments are consumed in order, one per parameter",
  "When `BlockContent::parse(spec, args)` succeeds, the i-th parameter of the content carries the i-th argument (as literal value, number, boolean or block reference), surplus arguments are ignored, and if there are fewer arguments than parameters the call does not succeed.",
  "all specs and argument lists",
  "Unbounded.",
  ["src/api/block.rs: BlockContent::parse"])
p("C35","Block types survive printing and parsing",
  "For every `BlockType`, `BlockType::from(&t.to_string(), t.get_typename().unwrap_or_default())` is `Ok(t)`.",
  "all block types including all type names",
  "Type names are arbitrary strings.",
  ["src/api/block.rs: BlockType::from, to_string, get_typename"])
# ---- views -----------------------------------------------------------------
p("C36","A view tree survives flattening and parsing",
  "For every forest of views with pairwise distinct ids other than `root`, `parse_raw_layout(Layout(flatten_views(forest, None, None)))` is Ok of a forest with the same shape, ids, child order and exposed attributes.",
  "all forests of any depth and width",
  "Unbounded trees.",
  ["src/api/view.rs: flatten_views, parse_raw_layout, View::find_id_mut"])
p("C37","A parsed layout flattens to the same set of view lines",
  "For every layout accepted by `parse_raw_layout`, flattening the result gives the same views (as a multiset) with every field unchanged.",
  "all layouts",
  "Unbounded lists; 31 fields; all 256 view types.",
  ["src/api/view.rs: parse_raw_layout, flatten_views, ViewType::from_view, apply_values_to_view"])
p("C38","A layout parses exactly when every parent is known",
  "`parse_raw_layout` succeeds if and only if every view has a parent field that is `root` or the id of a view earlier in the list; it never loses a view: the tree has exactly as many nodes as the list.",
  "all layouts",
  "Unbounded lists and arbitrary ids (including duplicates).",
  ["src/api/view.rs: parse_raw_layout"])
p("C39","The reconstructed type id follows the `view` field",
  "As documented on `View::view`, the type of a flattened view is the type of its `view` value (`get_type_id`), and `get_type_id(from_view(v)) == v.type` for every recognised view.",
  "all views and all 256 type ids",
  "All combinations of raw type and view type.",
  ["src/api/view.rs: ViewType::get_type_id, ViewType::from_view, flatten_views"])
p("C40","find_id finds the first view in document order",
  "`find_id(id)` returns a view with that id iff one exists in the tree, and it is the first one in depth-first pre-order; `find_id_mut` addresses the same view.",
  "all trees and ids",
  "Unbounded trees, duplicate ids.",
  ["src/api/view.rs: View::find_id, View::find_id_mut"])
# ---- screens and projects --------------------------------------------------
p("C41","Component kinds round trip",
  "`from_parser_component(&k.into_parser_component(id))` is `Ok(k)` and keeps the id for all kinds; a raw component of a known type converts back to itself iff its unused parameters are empty; unknown types are an error.",
  "all kinds, ids, parameters, all 256 types",
  "Parameters are arbitrary strings.",
  ["src/api/component.rs"])
p("C42","Events round trip",
  "`Event::try_from(e.into_parser_event().0)` is Ok with the same name and event type for every event; event types other than 1, 2, 3 are an error. `apply_to_parser_event` on any event sets the type and the fields of the kind and keeps the rest, so that `from_parser_event` gives the kind.",
  "all events",
  "Arbitrary names, ids, component types.",
  ["src/api/screen.rs: Event, EventType"])
p("C43","onCreate is an event exactly when its container exists",
  "`Screen::from_parsed` lists exactly one leading `onCreate` event more than the raw event pool iff the raw screen has a container `onCreate_initializeLogic`, and converting back never writes an `onCreate` event but keeps its container.",
  "all raw screens",
  "Arbitrary pools and containers.",
  ["src/api/screen.rs: Screen::from_parsed", "src/api/mod.rs: to_screen_logic"])
p("C44","Layout names map to distinct java names",
  "`view_name_to_logic` appends `Activity`, removes every underscore, capitalises the first letter and each letter after an underscore; it is injective on the names Sketchware allows (lower-case start, underscores followed by a lower-case letter, no capitals).",
  "all names / all pairs of names",
  "Pairs of strings of any length.",
  ["src/api/mod.rs: view_name_to_logic"])
p("C45","A screen survives conversion to raw form and back",
  "Converting a screen to its raw logic and back gives the same variables, list variables, moreblocks, components and events with the same code.",
  "all screens",
  "Unbounded structure.",
  ["src/api/mod.rs: From<SketchwareProject> for ParsedSketchwareProject", "src/api/screen.rs: Screen::from_parsed"])
p("C46","A project survives conversion to raw form and back",
  "`SketchwareProject::try_from(ParsedSketchwareProject::from(p))` is Ok of the same project, including its resources and their files.",
  "all projects",
  "Unbounded structure; depends on how the project was loaded.",
  ["src/api/mod.rs: TryFrom<ParsedSketchwareProject>, From<SketchwareProject>"])
p("C47","Metadata, colours and libraries are preserved",
  "Converting parsed to API and back keeps id, names, versions, creation time, the five colours and, for enabled libraries, their data; a library with a `use_yn` other than Y or N (except compat) is an error.",
  "all parsed projects",
  "Arbitrary field values.",
  ["src/api/mod.rs: TryFrom<ParsedSketchwareProject>, From<SketchwareProject>"])
p("C48","Resources behave like a map that never overwrites",
  "`put_resource` on an id already present in `Resources` (of whatever type) returns `IdTaken` and changes nothing; after a successful put, `get_resource` returns that file with the requested type; `remove_resource` removes exactly what `get_resource` returned.",
  "all histories of put/get/remove",
  "All operation sequences.",
  ["src/api/mod.rs: Resources::put_resource, get_resource, remove_resource"])
p("C49","Resource files are classified and never invented",
  "Collecting a list of resource file wrappers into `ResourceFiles` files every wrapper under its type and full name (later ones replace earlier ones of the same type and name), fails if a path does not exist or lies outside images/sounds/fonts/icons, and turning the result back into a list returns only wrappers of the original list.",
  "all lists of wrappers, all file systems",
  "Unbounded lists; hash map order is unspecified.",
  ["src/parser/mod.rs: TryFrom<Vec<ResourceFileWrapper>> for ResourceFiles, Into<Vec<ResourceFileWrapper>>"])
p("C50","A parsed project survives writing and parsing the six data files",
  "`SketchwareProject::parse_from(parsed.try_into())` is Ok of the same parsed project.",
  "all parsed projects",
  "Unbounded structure.",
  ["src/parser/mod.rs: SketchwareProject::parse_from, TryInto<RawSketchwareProject>"])
p("C51","Resource files are kept when the project is converted back",
  "A project loaded with resource files keeps them when it is converted back to parsed or raw form; a project loaded without them is converted back without them.",
  "all projects",
  "Both loading modes and all resource sets.",
  ["src/api/mod.rs: From<SketchwareProject> for ParsedSketchwareProject (resource_files)"])
p("C52","Logic added to a screen without logic is found again",
  "If a loaded project has an activity without a logic section and the user adds a variable to that screen, the variable is still on that screen after converting to raw form and back.",
  "all activity names",
  "Depends on the name mapping for all names.",
  ["src/api/mod.rs: TryFrom<ParsedSketchwareProject> (ScreenLogic::new_empty)", "src/api/mod.rs: view_name_to_logic"])
p("C53","Screens and custom views correspond one to one to file entries",
  "A successful conversion yields one screen per activity entry in the same order with its options, theme, orientation and keyboard setting, and one custom view per custom view entry in the same order; a custom view entry without a layout is an error.",
  "all parsed projects",
  "Unbounded lists.",
  ["src/api/mod.rs: TryFrom<ParsedSketchwareProject>"])
p("C54","Number and integer text conversions are inverse",
  "Decimal printing followed by parsing is the identity for every u8, u16, u32, i32 value and for every finite f64 (block number arguments), so ids and numbers written by the library are read back exactly.",
  "all machine integers, all finite f64 values",
  "2^64 values.",
  ["src/api/block.rs: process_content (to_string / parse)", "src/parser/logic.rs: Variable::parse", "src/parser/serde_util.rs: string_to_u16"])
p("C55","Block conversion agrees with the pointer-graph reading",
  "A container converts to Ok(tree) if and only if the tree is the one obtained by reading the pointers of the container starting at its first block (next = successor, sub stacks, @id parameters) with no raw block used twice.",
  "all containers and trees",
  "Arbitrary pointer graphs and unbounded trees.",
  ["src/api/block.rs: TryFrom<BlockContainer> for Blocks, BlockContent::parse, apply_blocks"])

p("C56","The text of a colour shows its value",
  "`Display` and `Debug` of a colour write 0x and the eight lower-case hex digits of its ARGB value; different colours are shown differently; `Color::parse_hex` of the eight digits gives the colour back.",
  "all 2^32 colours",
  "Padding and letter case fail only for values with leading zero digits or letters.",
  ["src/color.rs: impl Display for Color, impl Debug for Color, Color::parse_hex"])
p("C57","Every line of a file list is read as its section says",
  "`File::parse` of any text is Ok exactly when every item line before the first blank item line parses; the activities (custom views) are then the items of the lines whose last header is @activity (@customview), in order; otherwise the error names the first such line that does not parse.",
  "all texts",
  "Arbitrary mixtures of headers, repeated sections, blank and foreign lines.",
  ["src/parser/file.rs: File::parse"])
p("C58","Every line of a resource list is read as its section says",
  "`Resource::parse` of any text is Ok exactly when every item line before the first blank item line parses; images, sounds and fonts are then the items of the lines whose last header is @images, @sounds, @fonts, in order; otherwise the error names the section and the line of the first that does not parse.",
  "all texts",
  "Arbitrary mixtures of headers, repeated sections, blank and foreign lines.",
  ["src/parser/resource.rs: Resource::parse"])
p("C59","A library text means the last item after each header",
  "`Library::parse` of any text is Ok exactly when every line after a header parses and all four headers occur as headers; each library is then the item after the last occurrence of its header; otherwise the error is the one for the first bad item, for the header at the end of the text, or for the first missing header.",
  "all texts",
  "Headers may be repeated, may stand where an item is expected, and foreign lines may be anywhere.",
  ["src/parser/library.rs: Library::parse"])
p("C60","A view text means its layouts and floating buttons",
  "`View::parse` of any text is Ok exactly when, up to the first line that is not a header where one is expected, every header has a dot, every line of a layout parses and every floating button header is followed by a line that parses; of layouts (buttons) with the same name the last one is kept; otherwise the error describes the first failure.",
  "all texts",
  "Arbitrary sequences of headers and lines.",
  ["src/parser/view.rs: View::parse"])
p("C61","A logic text means its sections",
  "`Logic::parse` of any text is Ok exactly when, up to the first line that is not a header where one is expected, every header names a screen and a kind and every line of every section parses; each screen then has for every kind the pool of its last section of that kind, and of block containers with the same name the last; otherwise the error describes the first failure, or the parser panics on a header too short to cut.",
  "all texts",
  "Arbitrary sequences of sections, repeated sections and screens.",
  ["src/parser/logic.rs: Logic::parse"])
p("C62","A project text means its fourteen fields",
  "`Project::parse` is Ok exactly when the text is a JSON object in which each of the fourteen names occurs exactly once with a value of its type; the order of the fields does not matter and fields with other names are ignored.",
  "all texts",
  "All JSON texts and field orders.",
  ["src/parser/project.rs: Project::parse, #[serde(flatten)] color_palette"])
p("C63","Block container headers are inverse unless a name contains .java_",
  "Parsing a reconstructed block container header gives the same screen and container name if and only if neither contains `.java_`; parsing any line takes the text between @ and the first `.java_` as the screen and the text up to the next `.java_` as the container, and fails exactly when there is no @ or no `.java_`.",
  "all names, all lines",
  "Unbounded strings.",
  ["src/parser/logic.rs: BlockContainerHeader::parse, BlockContainerHeader::reconstruct"])
p("C64","A parse error points to the offending line",
  "The line number in an error of a data file is the number of the line that could not be read, and the content in the error is that line.",
  "all texts",
  "Needs all positions of the bad line.",
  ["src/parser/file.rs: FileParseError", "src/parser/resource.rs: ResourceParseError", "src/parser/library.rs: LibraryParseError", "src/parser/view.rs: ViewParseError", "src/parser/logic.rs: LogicParseError"])

p("C65","Reading a raw project reads each of its seven parts",
  "`ParsedSketchwareProject::parse_from` is Ok exactly when the six data files parse and the resource files (if given) can be filed, and the result consists of exactly these results; otherwise the error wraps the error of the first failing part in the order project, file, library, resource, view, logic, resource files; it panics only if the project file or the logic file makes its parser panic. `parse` and `parse_wo_res` are the same with and without resource files.",
  "all raw projects and file systems",
  "Arbitrary texts in any combination of good and bad parts.",
  ["src/parser/mod.rs: ParsedSketchwareProject::parse_from, parse, parse_wo_res"])
p("C66","Each activity is loaded from what is stored under its name",
  "In a loaded project the n-th screen is built from the layout and the floating button stored under the name of the n-th activity and from the logic stored under its java name, unless an earlier activity has taken them; what is missing is replaced by an empty layout, no button and an empty logic named like the layout. The whole conversion reports the first failure in the order screens, custom views, firebase, admob, google map, images, sounds, fonts.",
  "all parsed projects",
  "Maps of any size, names may be repeated or collide.",
  ["src/api/mod.rs: TryFrom<ParsedSketchwareProject> for SketchwareProject"])
p("C67","A screen is made of its layout, moreblocks, components and events",
  "`Screen::from_parsed` is Ok exactly when the layout is a tree, every moreblock spec parses, every component and event type is known, and the code of every moreblock and event converts; the code of each is the container of its name, or empty if there is none or an earlier moreblock or event has used it. Otherwise the error is that of the first failure in the order layout, moreblocks, components, events. It does not panic if no spec has a malformed parameter.",
  "all logic sections, layouts and file entries",
  "Containers, pools and trees of any size.",
  ["src/api/screen.rs: Screen::from_parsed"])
p("C68","Every resource gets its own file",
  "When a project is loaded with resource files, each image, sound and font gets the file of its type with its full name, no file is given to two items, and the conversion fails exactly on the first item (images, sounds, fonts) without a file of its own; without resource files each item is known by a number, its full name and its type.",
  "all parsed projects, all results of the random source",
  "Lists and maps of any size, with repeated names.",
  ["src/api/mod.rs: resources_conv!"])

p("C69","Gravity flags are bit masks",
  "Each test of a gravity looks at the bits of its constant only: center horizontal at bit 0, left at bits 0 and 1, right at bits 0 and 2, center vertical at bit 4, top at bits 4 and 5, bottom at bits 4 and 6, center at bits 0 and 4. A gravity combined from constants has all flags it was combined from; NONE has none.",
  "all gravity values",
  "All 32-bit masks, all combinations.",
  ["src/parser/view.rs: models::layout::gravity::Gravity"])
p("C70","Building, reading and writing the content of a block",
  "A content built with the builder has exactly the texts and arguments of the calls in order and prints them separated by single spaces; writing all arguments through get_args_mut replaces exactly the arguments; take_args returns the arguments in order, leaves a content that prints the same, and putting the arguments back restores the content. The constructors of a block give the colour of the category and the kind that fits the sub stacks.",
  "all contents and call sequences",
  "Sequences of calls of any length.",
  ["src/api/block.rs: BlockContent::builder, get_args, get_args_mut, take_args, to_string, Block::new, new_1substack, new_2substack"])
p("C71","The counting iterator counts calls and is otherwise transparent",
  "n calls of next give what n calls on the wrapped iterator give, and get_count is n, also when calls are made after the end; from 2^32 calls on it panics in a build with overflow checks and otherwise wraps.",
  "all iterators, all numbers of calls",
  "Any wrapped iterator (arbitrary state machine), any number of calls.",
  ["src/util.rs: CountingIterator"])

p("C72","A record line means its fields",
  "A line is accepted as a file item, library item, resource item, component, event, block or view exactly when it is a JSON text of an object whose fields (by name in any order, others ignored, none repeated) or of an array whose elements (by position) have values of the right kind, and the record has exactly these values: texts, integers in range (no fraction, no exponent, not -0), codes of enums, booleans as numbers or texts, colours limited to 32 bits, optional texts. The same holds for the project file (by name only).",
  "all texts",
  "All JSON texts, all orders and values of the fields.",
  ["src/parser/file.rs: FileItem", "src/parser/library.rs: LibraryItem, AdUnit", "src/parser/resource.rs: ResourceItem", "src/parser/logic.rs: Component, Event, Block", "src/parser/view.rs: AndroidView, ImageConfig, LayoutConfig, TextConfig", "src/parser/project.rs: Project", "src/parser/serde_util.rs", "src/color.rs: Deserialize for Color"])
p("C73","Records are read from and written as JSON texts",
  "The reader accepts exactly the texts of the JSON grammar (RFC 8259) and reads each in one way; the written line of every record is such a text and contains no control characters.",
  "all texts, all records",
  "Unbounded nesting and length.",
  ["src/parser/*.rs: serde_json::from_str, serde_json::to_string"])

p("C74","Numbers of data files are read correctly rounded when they are short",
  "A number whose digits without the point are below 2^53, whose power of ten is at most 22 and which has at most 8 decimals is read into a 32-bit field (alpha, scaleX, scaleY, translationX, translationY of a view) as the nearest 32-bit float (ties to even); an integer in the 64-bit range always is. A colour written as such a number is its integer part limited to 32 bits.",
  "all number texts within the bounds",
  "Unbounded set of spellings (zeros, exponents); longer numbers may be rounded wrongly (counterexample given).",
  ["src/parser/view.rs: AndroidView", "src/parser/logic.rs: Block", "src/color.rs: Deserialize for Color", "serde_json number reader"])
p("C75","Number arguments of blocks mean the nearest double",
  "A number argument is accepted exactly when it is an optional sign followed by digits with at most one point and an optional exponent, or by inf, infinity or nan in any case, and its value is the 64-bit float nearest to the exact value of the digits (ties to even, infinity from the limit on); the written text of a number is such a text of the same number.",
  "all texts, all floats",
  "Texts of any length.",
  ["src/api/block.rs: TryFrom<parser::logic::Block> for Block, ArgValue"])

p("C76","Numbers are written with the fewest digits that read back",
  "The text of a number argument and the number fields of a view line are decimals that round back to the float; no decimal with fewer digits does, and none with as many digits that does is closer; of two equally close ones a number argument takes the larger, a number field the even one. Number arguments are written without exponent; number fields without exponent from 0.000001 below 10^13 (with at least one decimal), otherwise with one digit before the point and an exponent.",
  "all finite 64-bit and 32-bit floats",
  "Minimality over all decimals of all lengths and powers of ten.",
  ["src/api/block.rs: ArgValue to_string", "src/parser/view.rs: AndroidView", "std f64 Display, ryu"])

p("C77","The encrypt and decrypt programs",
  "With one file name encrypt writes to that name with _enc appended, with two to the second; the written file decrypts to the input, no other file changes, and without a name for the output no other file can change even if the program is killed. A missing input or a wrong number of arguments ends with code 1 and no change. decrypt prints the text of a file that decrypts to one, succeeds on nothing else and changes nothing; a text file that is encrypted and decrypted again is printed as it was.",
  "all command lines, all file systems, all points of interruption",
  "Arbitrary file contents and interruption points.",
  ["examples/encrypt.rs", "examples/decrypt.rs", "src/lib.rs: encrypt_sw_file_to_file, decrypt_sw_file"])
p("C78","The listing programs print what is in a data file",
  "Given a file that is UTF-8 text and parses, the programs list its contents completely and in order (resources by kind; views of each layout numbered from 0 with id and type; the number of members of every section of a screen; activities and custom views) and end with code 0; in every other case they print nothing and end with code 101. On files written by the library the records themselves are listed.",
  "all command lines and file systems, all records",
  "Data files of any size.",
  ["examples/parse_resource.rs", "examples/parse_view.rs", "examples/parse_logic.rs", "examples/parse_file.rs", "examples/parse_library.rs", "examples/parse_project.rs"])
p("C79","The demonstration program lists the events of a project with their code",
  "If the six files decrypt to texts that load as a project, every event of every screen is listed in order with its blocks, nested blocks two spaces further to the right below their block; otherwise nothing is printed. If no label has a newline, the nesting of the blocks can be told from the listing. A project with any resource is never listed, because no resource files are passed.",
  "all command lines, file systems and projects",
  "Nesting of any depth.",
  ["examples/api_demo1.rs"])
p("C80","The error texts name the input that caused them",
  "Whenever reading a data file, a project or its resource files fails, the text of the error and of the errors that caused it are determined by the input: which data file, which section of which screen, the count or line stated with it, the offending header, path or type. The first data file that cannot be read is the one reported. Encrypted data that cannot be decrypted, decrypted data that is not UTF-8 and missing files each have their text; the first of the six encrypted files that fails decides.",
  "all texts, all projects, all resource files",
  "Files of any length; the numbers in the texts are arbitrary.",
  ["src/parser/error.rs", "src/parser/file.rs", "src/parser/library.rs", "src/parser/logic.rs", "src/parser/resource.rs", "src/parser/view.rs", "src/parser/mod.rs", "thiserror Display"])
p("C81","Which error a spec and its arguments give",
  "Reading a block spec with its arguments fails at the first word that cannot be read: an unknown letter, too few arguments, a reference that is not a number below 2^32, a boolean or number argument that is none; the error names that letter, word or argument. It panics exactly if the first such word is cut short. The same for specs without arguments.",
  "all specs, all argument lists",
  "Specs and argument lists of any length; the first failing word is found by induction.",
  ["src/api/block.rs: BlockContentParser, BlockContent::parse_from, parse_wo_params"])
p("C82","Which error a block container gives",
  "Converting raw blocks fails at the first id that is not a number; otherwise at the first problem on the way through the pointers (substack 1, substack 2, spec and arguments, blocks used as arguments, type, next block): a block that is missing or was used before, a spec error, an unknown type. The error carries the ids on the way; an error inside an argument is reported as that block not being found. Every container either has one reading or one such failure.",
  "all containers of raw blocks",
  "Pointer graphs of any size and nesting, including cycles and sharing.",
  ["src/api/block.rs: Blocks::try_from, parse_blocks, parse_block, BlockConversionError, BlockContentParseError"])
p("C83","The error texts of the API name what caused them",
  "When a parsed project cannot be turned into an API project, the texts of the error and its causes name the first part that fails: the screen, then the moreblock, container, event, component or view, the blocks on the way into nested substacks, the argument or spec parameter; or the custom view, library or resource. A malformed id is called empty, too large or not a number as it is. The same for unknown view types and block colours.",
  "all parsed projects, containers, layouts, views, colours",
  "Chains of texts of any length through nested blocks.",
  ["src/api/mod.rs: SketchwareProjectConversionError", "src/api/screen.rs", "src/api/block.rs", "src/api/view.rs", "src/api/component.rs"])
p("C84","The error text of adding a resource names the resource",
  "If a resource cannot be added because its file is missing the error text names the file; if it cannot be added because its id is taken the text names the id.",
  "all resources, ids and files",
  "All ids.",
  ["src/api/mod.rs: ResourceAdditionError"])
p("C85","A project is the same after saving and loading",
  "An API project that is written to its six data files (plain or encrypted) and loaded again is the same project: metadata, colours, libraries, screens with their layouts, buttons, variables, components, events and code, custom views, and the ids and file names of the resources.",
  "all API projects, all orders in which maps are written, all file systems",
  "Projects of any size; composes every conversion and every data file in both directions.",
  ["src/api/mod.rs: TryFrom<ParsedSketchwareProject>, From<SketchwareProject>, TryInto<RawSketchwareProject>", "src/parser/mod.rs: ParsedSketchwareProject::parse_from, TryInto<RawSketchwareProject>", "src/parser/mod.rs: RawSketchwareProject::from_encrypted"])

p("C86","What remains of a saved project is known in every case",
  "An API project whose names and numbers fit the data files can always be written. Loading the written project panics or fails iff the text of its creation date (its parts without leading zeros, cut at fixed places) is not a date; in the years 1000-9999 that is iff the month, day, hour, minute or second has one digit. Otherwise it fails in the view file iff a layout other than the last one has views; otherwise it gives the project back, created at the second that this text means (its own iff the parts have two digits and the year four characters), but for the code of the screens from the first one without events and more blocks on, the floating buttons if no layout has views, and the custom views if there is no screen. Saving and loading once more loses nothing more. With automatic resources the icon is the only file written: loading fails if the icon lies in no resource folder or a resource is left without a file; the icon is lost if it does not lie in a folder of icons, and its file becomes that of a resource iff it is the only one and has that type and file name.",
  "all API projects with fitting names and numbers, all orders in which maps are written, all file systems",
  "Gives the outcome for every project, including those that do not come back (C85).",
  ["src/api/mod.rs: TryFrom<ParsedSketchwareProject>, From<SketchwareProject>", "src/parser/mod.rs: ParsedSketchwareProject::parse_from", "src/parser/logic.rs: Logic::parse", "src/parser/view.rs: View::parse"])

p("C87","Every record is written in exactly one way",
  "A file item, library item, resource item, component, event, block, view line or project is written as one JSON object without white space, with exactly the keys the format has, in the order of the struct, each with the value of its field: texts escaped as JSON, numbers in decimal, colours as signed 32-bit numbers, enums by their number or name, flags as 0 or 1, floats with the fewest digits, absent options left out. Variables, list variables and more blocks are written as their type or name, a colon and the rest.",
  "all records (floats and colours of their types)",
  "All texts, numbers and lists in the fields; the text is unique.",
  ["src/parser/file.rs", "src/parser/library.rs", "src/parser/resource.rs", "src/parser/logic.rs", "src/parser/view.rs", "src/parser/project.rs: derive(Serialize)", "src/color.rs", "src/parser/serde_util.rs"])
p("C88","Every data file is written as exactly these lines",
  "The file, resource, library, view and logic data files are written as their sections in a fixed order, each a header line followed by its items in their order, one item per line; which sections are separated by blank lines and which line ends are left out at the end is determined. In a logic file the variables of all screens come first, then all lists, components, events, more blocks and block containers.",
  "all data files with fitting names and numbers",
  "Files of any size, any number of screens, layouts and containers, including empty ones.",
  ["src/parser/file.rs: File::reconstruct", "src/parser/resource.rs: Resource::reconstruct", "src/parser/library.rs: Library::reconstruct", "src/parser/view.rs: View::reconstruct", "src/parser/logic.rs: Logic::reconstruct"])
p("C89","What is new has fixed values",
  "A new view is written with the fixed default values in every field other than its id, type, parent and parent type; a new component has empty parameters where none are given; a new block has the colour of its category and the type of the stacks given; a new screen writes no section; new resources, resource files, blocks, colours, palettes and projects are empty or have the documented defaults.",
  "all ids, types, parents, parameters, block contents and stacks",
  "All arguments of the constructors.",
  ["src/parser/view.rs: AndroidView::new_empty, Default", "src/parser/logic.rs: Component::new*, ScreenLogic::new_empty", "src/api/block.rs: Block::new*", "src/api/mod.rs: Resources::new_empty, SketchwareProject::new", "src/parser/project.rs: Default", "src/color.rs: Default"])
p("C90","Files are encrypted with AES-128 in CBC mode under the key sketchwaresecure",
  "`encrypt_sw` returns exactly the AES-128 (FIPS-197) encryption in CBC mode of the data padded with n bytes of value n, 1 <= n <= 16, to a multiple of 16 bytes; the key and the initialisation vector are the 16 bytes of `sketchwaresecure`. `decrypt_sw_encrypted` returns `Ok(p)` exactly if the data is such an encryption of `p` padded with n bytes of value n, 1 <= n <= 255. The functions reading files do the same with the content of the file.",
  "all byte strings, all file contents; the block cipher for all keys and blocks",
  "A test fixes a few vectors; a wrong entry of a table or a wrong key shows up only against the standard, since encrypting and decrypting would still be inverse to each other.",
  ["src/lib.rs: KEY", "src/lib.rs: encrypt_sw", "src/lib.rs: decrypt_sw_encrypted", "src/lib.rs: encrypt_sw_file", "src/lib.rs: decrypt_sw_file"])
p("C91","Project texts are UTF-8, and lengths, positions, white space and separators are those of Unicode",
  "`RawSketchwareProject::from_encrypted` succeeds with six texts exactly if each file decrypts to the UTF-8 encoding (RFC 3629) of its text: shortest forms only, no surrogates, nothing above U+10FFFF. String lengths and slices used by the parsers count UTF-8 bytes, and a slice inside a character is refused. Trimming removes exactly the Unicode white space at both ends; splitting at a character or at the first occurrence of a text gives exactly the parts between.",
  "all byte strings and all texts",
  "There are over a million characters and unboundedly many malformed byte strings.",
  ["src/parser/mod.rs: RawSketchwareProject::from_encrypted", "src/parser/file.rs", "src/parser/view.rs", "src/parser/logic.rs", "src/color.rs"])

p("C92","The strings of a project stay strings, so whatever is saved can be encrypted and loaded again",
  "If all strings of a value are sequences of Unicode scalar values (as `String` guarantees), so are all strings of what comes out of reading the six files (`SketchwareProject::parse_from`), of converting to the API (`TryFrom`), of converting back (`TryInto`) and of writing (`RawSketchwareProject::try_from`), in whatever order maps are written. Hence for every API project that can be written, encrypting the UTF-8 of its six files and calling `from_encrypted` gives back exactly the raw project; and whatever is loaded from encrypted files, of any bytes, has only such strings.",
  "all projects, all files, all orders of maps",
  "Strings are cut at byte positions, split, joined, trimmed, escaped and unescaped in many places; each must not cut through or make up a character.",
  ["src/parser/mod.rs: RawSketchwareProject, SketchwareProject::parse_from", "src/parser/raw.rs", "src/api/mod.rs: SketchwareProject TryFrom / TryInto", "src/parser/view.rs", "src/parser/logic.rs", "src/api/block.rs"])

p("C93","What is written for an API project is exactly these records",
  "Converting an API project back gives: the project record with the metadata and colours and `custom_icon` set iff there is an icon; one file item per screen with its settings and one per custom view with the defaults; the four library items with the numbers 0 to 3, in use iff given, with their data; one resource item of type 1 per resource, named by the last component of its path; for every screen and custom view its views listed level by level, each record with its own fields, those of its type and the rest as read, the parent and the number of the parent's type; the floating buttons without parent; the logic of every screen with all variables, components, events other than `onCreate`, more blocks and containers; and in each container the blocks numbered from 10, each followed by those of its arguments and stacks, with the references between them. Of two with the same name the last is written. It panics exactly if some code has an argument that was never filled in or some resource path has no file name; it never returns an error.",
  "all projects whose code has fewer than 2^31 - 10 blocks per container",
  "Any number of screens, views nested to any depth, code nested to any depth.",
  ["src/api/mod.rs: TryInto<ParsedSketchwareProject> for SketchwareProject", "src/api/view.rs: flatten_views", "src/api/block.rs: Blocks::to_block_container", "src/api/screen.rs: Event::into_parser_event", "src/api/component.rs: into_parser_component", "src/parser/mod.rs: ResourceFileWrapper::get_full_name"])

p("C94","What comes back of code that is written and read again",
  "Writing blocks to a container and reading the container: every block comes back with its colour, opcode, type and texts; in the place of each argument block and of each sub stack stands the one block that was written last in it, without anything below it; a boolean argument whose block ends in one called `true` or `false` is that value; empty string and menu arguments come back as strings of no characters. Reading succeeds exactly if no number or boolean argument of a block that is read is empty and none has a list type; otherwise it is an error, never a panic. What came back is kept by every further trip.",
  "all block trees with texts and names without spaces or leading '%', strings without leading '@' and no blocks in menus, with fewer than 2^31 - 10 blocks",
  "Trees of any depth and width; the general case of C31.",
  ["src/api/block.rs: Blocks::to_block_container", "src/api/block.rs: Into<BlockContainer> for Blocks", "src/api/block.rs: TryFrom<BlockContainer> for Blocks"])

p("C95","A project with any plain code comes back with its code settled, or loading is an error",
  "Converting an API project and converting back, and writing it to the six files and loading them: it never panics because of the code; it is read exactly if no number or boolean argument of a block that is read is empty and none has a list type (C94), through the files only as far as code is kept at all (C86); then it is the project that C46 and C86 describe, with each event's and moreblock's code settled as C94 says and nothing else changed. What has come back once is not changed again by going this way.",
  "all projects whose code has texts and names without spaces or leading '%', strings without leading '@' and no blocks in menus; other conditions as in C46 and C86",
  "Any number of screens, events and moreblocks with code of any shape; C46 and C86 only speak of code that survives.",
  ["src/api/mod.rs: SketchwareProject TryFrom / TryInto", "src/api/screen.rs: Screen::from_parsed", "src/api/block.rs: Blocks", "src/parser/mod.rs: SketchwareProject::parse_from", "src/parser/logic.rs: Logic::parse / reconstruct"])

p("C96","Whatever code has been read can be written, and what then comes back is known",
  "Any stored code that converts to blocks converts to stored code again without error. That can be read exactly if none of the blocks that are read again (the outermost ones, and the last written one of each argument and sub stack) has a list type; otherwise it is an error, not a panic. What is read then has, in the place of each argument and sub stack of an outermost block, the one block written last in it, and no longer changes. Nothing changes exactly if the code is of the shape of C31. For a project that has been loaded, the conditions of C95 on code and moreblock specs hold, so it can be saved and loaded again as C95 says.",
  "all block containers that are read without error and have fewer than 2^31 - 9 blocks; all parsed projects that convert, with the arrangement that C46 and C86 ask for",
  "The user's view of load and save: blocks are lost or the second load fails, although each conversion succeeds.",
  ["src/api/block.rs: TryFrom<BlockContainer> for Blocks", "src/api/block.rs: Into<BlockContainer> for Blocks", "src/api/screen.rs: Screen::from_parsed", "src/api/mod.rs: SketchwareProject TryFrom / TryInto"])

p("C97","Texts and names with spaces in blocks and moreblock specs are written as their words",
  "A block tree is written exactly like the tree in which each text is split at its spaces into texts, and each parameter name ends at its first space with the rest following as texts; the same holds for the code and the moreblock specs of a whole project. So code whose texts and names contain spaces is written and read again as C94 and C95 say of the split code, as long as no word after a split starts with '%' and no name is empty or starts with a space.",
  "all block trees and API projects; for the reading, those whose words do not look like parameters and that satisfy the remaining conditions of C94 and C95",
  "Callers write texts such as \"set text of\" as one item, and get three items back.",
  ["src/api/block.rs: Into<BlockContainer> for Blocks", "src/api/block.rs: BlockContent::to_string / parse_from", "src/api/mod.rs: SketchwareProject TryInto"])

p("C98","== is true exactly for values that are the same up to the signs of zeros and have no NaN",
  "Two raw views, view files, block lists, layouts, screens or API projects are equal under the derived == exactly if no floating point number in them is NaN and they are identical once every -0.0 is read as 0.0; so == is symmetric and transitive, and a value equals itself exactly if there is no NaN in it. A parsed view file always equals itself; a loaded project equals itself exactly if no number argument in its code is NaN; code that is written and read again equals the code before exactly if it is kept as it is (C31) and has no NaN.",
  "all values of these types; for the last part, all block lists whose raw blocks fit into 31 bits",
  "Callers and the repository's tests compare projects and blocks with ==; a project with a NaN argument never equals its own copy.",
  ["src/api/block.rs: derive(PartialEq)", "src/api/view.rs: derive(PartialEq)", "src/api/screen.rs: derive(PartialEq)", "src/api/mod.rs: derive(PartialEq)", "src/parser/view.rs: derive(PartialEq)"])

p("C99","Which code can be read again at all, whatever its texts and names",
  "For code whose strings do not refer to blocks and whose menus hold no blocks: Blocks::try_from of what Into<BlockContainer> wrote succeeds exactly if, in every block that is read again, no word of a text or of a name starts with '%', no string starts with '@', the names of menus are not empty and do not start with a space, numbers and booleans are given, and no block type is that of a list. Then the words of texts come back as texts, names end at their first space, names that are empty up to there come back as no name, and in the place of each argument and sub stack stands the block written last in it. For any code, an empty name of a string, number or boolean is read like no name.",
  "all block trees that can be written with ids below 2^31, with any texts and names; strings that are '@' and an id and blocks in menus excluded for the equivalence",
  "A text such as \"100 %\" in a block is accepted when writing and makes the code unreadable.",
  ["src/api/block.rs: Into<BlockContainer> for Blocks", "src/api/block.rs: BlockContent::to_string / parse_from", "src/api/block.rs: TryFrom<BlockContainer> for Blocks"])

p("C100","A project that is saved and loaded again and again",
  "A project without resource files can be converted to its parsed form and back any number of times, and as often through the six data files if it can be told apart there (C85): metadata, colours, libraries, screens with their views, code and buttons and custom views are the same however often that is; the flag for automatic resource ids is turned round every time; the custom icon is lost the second time at the latest. From the second time on nothing but the flag changes, including the attributes only reachable through `raw`. A project with resources can be saved and loaded once; what has been loaded can be saved, but loading that is an error (MissingResourceFile).",
  "all projects that are ready (C46), any number of conversions, any order in which maps are written, any random ids",
  "Any number of repetitions; projects with resources fail the second time only.",
  ["src/api/mod.rs: TryFrom<ParsedSketchwareProject>", "src/api/mod.rs: Into<ParsedSketchwareProject>", "src/api/view.rs: flatten_views / parse_raw_layout"])

p("C101","Filling in the arguments of a block content",
  "`BlockContent::apply_args` gives the texts, in order, to the arguments that have no value: a text that starts with '@' becomes a placeholder for the block of that number, in menus too, any other text the value it spells; texts, names and arguments that have a value stay as they are and use no text; texts left over are ignored. It is an error exactly when the texts run out or one does not spell a value or a block number, and the error is that of the first such argument; it never panics, and filling a filled content changes nothing. `apply_blocks` asks for the block of each placeholder, in order, and puts it there; a boolean argument gets the value in place of a block with the opcode true or false; the first refusal is the error BlockNotFound and nothing is asked after it.",
  "all contents (with and without values), all texts, all functions that hand out blocks (also such that remember what they were asked)",
  "The two halves of filling a block can be used on their own and on contents that are partly filled; only their use on freshly parsed specs was described before.",
  ["src/api/block.rs: BlockContent::apply_args", "src/api/block.rs: BlockContent::apply_blocks"])

p("C102","Reading one section off an iterator of lines",
  "`parse_iter` of the variable, list variable, component, event and moreblock pools and of a layout reads the lines before the first empty one and also takes that empty line, so the next call goes on after it; at the end of the iterator it stops likewise. If all these lines can be read, the result has one entry per line (for pools with names: per name, that of the last line with it). Otherwise the error has the number (from 0), the content and the reason of the first line that cannot be read (for layouts also the view before it), and the iterator goes on with the line after that one. It never panics. The data files are read with exactly these functions.",
  "all lists of lines, including empty ones and such without an empty line",
  "The functions are public and take `&mut impl Iterator`, so what is left in the iterator is observable, also after an error.",
  ["src/parser/logic.rs: VariablePool::parse_iter, ListVariablePool::parse_iter, ComponentPool::parse_iter, MoreBlockPool::parse_iter, EventPool::parse_iter", "src/parser/view.rs: Layout::parse_iter"])

p("C103","Blocks in the place of menus become texts when code is written and read again",
  "Writing blocks to a container and reading the container: as in C94 and C99, and a menu argument that holds a block comes back as the text '@' and a decimal number. The number is that of the raw block written last for the block in the menu; raw blocks are numbered from 10 in the order block, arguments, first sub stack, second sub stack. So no such menu comes back as it was. It is read exactly if C94's (for any texts and names: C99's) condition holds, whatever is inside the menus; for plain texts and names it never panics, and what came back is kept by every further trip.",
  "all block trees, menus with blocks included, in which no string that is read again is '@' and the number of a block; fewer than 2^31 - 10 blocks",
  "C94 and C99 leave out blocks in menus. Together with this, only strings that look like references are left.",
  ["src/api/block.rs: Blocks::to_block_container (Argument::Menu)", "src/api/block.rs: Into<BlockContainer> for Blocks", "src/api/block.rs: TryFrom<BlockContainer> for Blocks"])

p("C104","A project with any code comes back with the code of C103, or loading is an error",
  "Saving and loading an API project, in memory and through the files, as C95 says, for code with any texts and names and with blocks in menus: the project is written; it is read exactly if its code can be read in the sense of C103 (through the files: as far as the files keep code, see C85), and then it comes back as in C46 and C86 with the code that C103 describes. What came back is ready in the sense of C46, so it comes back unchanged from then on, and code that survives is not changed.",
  "all API projects whose names are consistent as in C95, whose moreblock specs can be told apart, whose code can be written with its numbers in the format's notation, and in which it is not so that there are strings of '@' and a number that all refer to blocks that are not read in their own place (C106)",
  "C95 is about code whose words can be told apart; an editor user can type anything into a text or a menu.",
  ["src/api/mod.rs: TryInto<ParsedSketchwareProject> for SketchwareProject", "src/api/mod.rs: TryFrom<ParsedSketchwareProject> for SketchwareProject", "src/api/screen.rs: Screen::from_parsed", "src/api/block.rs: Into<BlockContainer> for Blocks", "src/api/block.rs: TryFrom<BlockContainer> for Blocks"])

p("C105","Code that has been written is read again without a panic unless a word of it looks like a broken parameter",
  "If no word of a text or name in any block is '%', '%m' without a name, or '%' with a character of three or more bytes and a dot, and no menu has a name that is empty or begins with a space, then reading what the blocks have been written to is a result or an error, never a panic; whatever the values, references, types and sub stacks are. The same holds for whole projects, in memory and through the files, whatever else the project contains.",
  "all block trees; all API projects that can be written, and through the files those whose names are consistent and fit the format",
  "C104 says when code comes back, but not that the other cases are errors. '100 %' as a text of a block crashes the reader.",
  ["src/api/block.rs: TryFrom<BlockContainer> for Blocks", "src/api/block.rs: BlockContent::parse_from, parse_wo_params", "src/api/mod.rs: TryFrom<ParsedSketchwareProject> for SketchwareProject"])

p("C106","A string that looks like a reference makes code unreadable, unless it refers to a block that is lost anyway",
  "Writing blocks to a container and reading the container: if this succeeds then the strings of '@' and a number, in the blocks that are read again, refer to raw blocks of the container, no two to the same one and none to a block that is read in its own place. So one string with the number of a block that is read in its own place (its own block included), or of no block, makes reading fail. Unless there are such strings and all of them refer, each to another one, to blocks that are not read in their own place, code is read exactly if C103's condition holds, in particular no string begins with '@', and then comes back as C103 says; this includes all code of which every raw block is read again. Whatever comes back in another way than C103 says has a string that refers to a raw block that is not read in its own place.",
  "all block trees with fewer than 2^31 - 10 blocks; the numbers that are read in their own place are computed from the tree",
  "C94, C99, C103 and C104 leave out strings of '@' and the number of a block. A user can type '@10' into a text field.",
  ["src/api/block.rs: TryFrom<BlockContainer> for Blocks (parse_block)", "src/api/block.rs: BlockContent::parse_from", "src/api/block.rs: Into<BlockContainer> for Blocks"])

p("C107","What has been read from a data file can be written and read again",
  "For every text: if a line is read as a file, library or resource item, a component, an event or a block, then the text written for it is read as an equal value; so is what is written for a library file, a resource file, a component pool, an event pool or a block container that was read. A file list that was read comes back unless it has custom views but no activities. A view that was read comes back unless one of its floats was read as an infinity; a view file if in addition its layouts are told apart as in C20. A logic file that was read, if its names can be written (no screen with '.java_' in its name, no container whose header is that of a pool, no white space that is trimmed away), is read again without an error, and as the same screens just if those with block containers come first. A project file that was read can always be written, and comes back just if the format keeps its date (C25).",
  "all texts, nothing is asked of the value: it is whatever was read",
  "A tool that opens a project and saves it must not fail on, or change, what it has just accepted. C11 to C26 are about values whose numbers are in the range of their types and whose names fit; this says that everything that was read is of that kind, or which of it is not.",
  ["src/parser/file.rs: Parsable for File", "src/parser/library.rs: Parsable for Library", "src/parser/resource.rs: Parsable for Resource", "src/parser/view.rs: Parsable for View, Parsable for AndroidView", "src/parser/logic.rs: Parsable for Logic, Component, Event, Block and their pools", "src/parser/project.rs: Parsable for Project"])

p("C108","A project that was opened can be saved and opened again",
  "For every raw project that is parsed without an error: it can be written as a raw project again. If in addition the names in its logic can be written (as in C107), then it is parsed again to an equal project (up to the order of the screens in the logic) just if the format keeps its date (C25), it has an activity or no custom views, the floats of its views are finite, its layouts are told apart as in C20, and the screens with block containers come before those without; the resource files are never in the way, whichever order they are written in. If besides every screen has block containers and variables, the order is kept as well, and writing the project that was parsed again gives the same six texts.",
  "all raw projects and file systems, both behaviours of the linked hash map, all orders of the resource files",
  "Opening, saving and opening a project is what the library is for. C50 asks that the parts of the project fit their formats; this says which of those conditions a project that came from files can still violate.",
  ["src/parser/mod.rs: SketchwareProject::parse_from, impl TryInto<RawSketchwareProject>", "src/parser/mod.rs: ResourceFiles"])

p("C109","A project that was loaded can be saved",
  "For every raw project that is parsed and converted to an API project without an error: the API project can be converted back and written as a raw project; neither step panics or fails (as long as each piece of code has fewer than 2^31 - 9 blocks). If the ids of the images (sounds, fonts) are distinct, the list of images (sounds, fonts) that is written has the same ids and file names in the same order. If it was loaded with its resource files and its screens are in order (names, numbers of blocks, layouts; as in C96), converting what was written again does not panic, succeeds exactly if no list block is left in the code, and gives the loaded project with its code settled. If also the numbers in its layouts are finite and the names of its screens, events and more blocks can stand in the files, the same holds for opening and converting the files that were written, provided that the date is read and only the last layout has views. The screens have the layout names of the activities in the file list, in order; a screen has the Java name that belongs to its layout name if the logic file has something under that name and no earlier screen has taken it, and otherwise no logic and its layout name as Java name.",
  "all raw projects, file systems and random numbers, both behaviours of the linked hash map",
  "Saving panics on code with empty arguments, on files without a name and on dates that the date library lacks (C93, C25). A tool that loads a project must be able to save it whatever the files contained.",
  ["src/parser/mod.rs: SketchwareProject::parse_from, impl TryInto<RawSketchwareProject>", "src/api/mod.rs: impl TryFrom<ParsedSketchwareProject> for SketchwareProject, impl From<SketchwareProject> for ParsedSketchwareProject"])

p("C110","Screens without logic are saved and converted again",
  "For every raw project with resource files that is parsed and converted to an API project without an error, also if the logic file has nothing about some of its screens (such a screen is loaded with its layout name as Java name): suppose that the screens would be in order (as in C109) if each had the Java name that belongs to its layout name, and that no layout name equals the Java name that belongs to a layout name of the project. Then converting the project back succeeds, converting the result again does not panic and succeeds exactly if no list block is left in the code, and gives the loaded project with its code settled, the screens without logic included. Without the last condition code can be lost: a screen without logic whose layout is called MainActivity replaces the logic of the screen main.",
  "all raw projects, file systems and random numbers, both behaviours of the linked hash map",
  "A freshly made screen has no logic. Its Java name is not the one under which its logic is looked up again, so it is not clear that saving and loading keeps it, or that it leaves the other screens alone.",
  ["src/api/mod.rs: impl TryFrom<ParsedSketchwareProject> for SketchwareProject, impl From<SketchwareProject> for ParsedSketchwareProject", "src/parser/logic.rs: ScreenLogic::new_empty"])

out=os.path.join(os.path.dirname(os.path.abspath(__file__)),"..","properties.jsonl")
with open(out,"w") as f:
    for x in P: f.write(json.dumps(x,ensure_ascii=False)+"\n")
print(len(P))
