(** The texts of the errors: the [Display] that thiserror derives from the #[error] attributes of /repo/src, and the chain
    of [source]s. Errors of other crates (serde_json, std) are not part of a chain. [dbg] is the [Debug] of a string or a path, which
    is not modelled. The errors that no code of the crate makes are left out: those of writing (parser/view.rs L149-164 and L211-218,
    parser/file.rs L104-111, parser/library.rs L115-123, parser/logic.rs L306-320, L694-701, L1090-1097, parser/resource.rs
    L121-129, parser/mod.rs L267-286), because serialising never fails. *)
From Verif Require Import Base Dec Crypto M_Color M_Raw M_File M_Library M_Resource M_View M_Logic M_Parsed A_View A_Block A_Screen A_Project.

(** ** Parser *)
(** parser/file.rs L96-101 *)
Definition file_message (e : file_error) : str :=
  match e with FileItemParseError line content => lit "failed to parse a file item at line " ++ dec_of_N line ++ lit " with the content " ++ content end.
(** parser/library.rs L98-112 *)
Definition library_message (e : library_error) : str :=
  match e with
  | EOFAfterHeader h => lit "end of file after the header " ++ h
  | LibraryItemParseError h line => lit "error while parsing a library item of " ++ h ++ lit " at line " ++ dec_of_N line
  | MissingItem h => lit "missing a library item of " ++ h
  end.
(** parser/resource.rs L12-18, derive(Debug) *)
Definition section_debug (s : res_section) : str :=
  match s with RsImages => lit "Images" | RsSounds => lit "Sounds" | RsFonts => lit "Fonts" | RsNone => lit "None" end.
(** parser/resource.rs L112-118 *)
Definition resource_message (e : resource_error) : str :=
  match e with ResourceItemParseError sec line => lit "error while parsing a resource item of " ++ section_debug sec ++ lit " at line " ++ dec_of_N line end.
(** parser/view.rs L200-208 *)
Definition layout_parse_message (e : layout_parse_error) : str :=
  lit "error while parsing the view at line " ++ dec_of_N (lpe_line e) ++ lit " of a layout".
(** parser/view.rs L120-146 *)
Definition view_message (e : view_parse_error) : str :=
  match e with
  | VInvalidHeader line _ => lit "invalid view header at line " ++ dec_of_N line ++ lit ", couldn't separate screen name and container name"
  | VLayoutParseError screen container _ => lit "error while parsing layout of " ++ screen ++ lit " " ++ container
  | VFabParseError screen _ _ => lit "error while parsing a fab of screen " ++ screen
  | VEOFAfterFabHeader screen line => lit "EOF after the fab header of screen " ++ screen ++ lit " at line " ++ dec_of_N line
  end.
Definition view_chain (e : view_parse_error) : list str :=
  view_message e :: match e with VLayoutParseError _ _ s => [layout_parse_message s] | _ => [] end.
(** parser/logic.rs L452-463 with L490-493 *)
Definition type_message (value : N) : str := lit "the value given (" ++ dec_of_N value ++ lit ") is not mapped to any variable type".
Definition variable_chain (e : variable_error) : list str :=
  match e with
  | MalformedVariable _ => [lit "malformed variable, couldn't find `:` to separate"]
  | MalformedVariableType content => [lit "variable type `" ++ content ++ lit "` is not an int"]
  | InvalidVariableType value => [lit "variable type " ++ dec_of_N value ++ lit " is not mapped to any value"; type_message value]
  end.
(** parser/logic.rs L607-616 *)
Definition list_variable_chain (e : list_variable_error) : list str :=
  match e with
  | LvMissingColon => [lit "couldn't find a colon, is this malformed?"]
  | LvTypeIsNotInt => [lit "variable type is not a valid integer"]
  | LvInvalidVariableType value => [lit "variable type " ++ dec_of_N value ++ lit " is not a valid type"; type_message value]
  end.
(** parser/logic.rs L873-878 *)
Definition more_block_chain (e : more_block_error) : list str :=
  match e with MalformedMoreBlock content => [lit "moreblock is malformed, content: " ++ content] end.
(** parser/logic.rs L1012-1021 *)
Definition header_chain (e : container_header_error) : list str :=
  match e with
  | DoesntStartWithAtSign => [lit "header does not start with a `@`"]
  | NoScreenName => [lit "couldn't get the screen name"]
  | NoContainerName => [lit "couldn't get the container name"]
  end.
(** parser/logic.rs L401-408, L558-565, L684-691, L937-944, L824-831, L1081-1087 *)
Definition variable_pool_message (e : pool_error variable_error) : str := lit "error while parsing a variable at count " ++ dec_of_N (pe_count e).
Definition list_variable_pool_message (e : pool_error list_variable_error) : str := lit "error while parsing list variable at count " ++ dec_of_N (pe_count e).
Definition component_pool_message (e : pool_error unit) : str := lit "error while parsing component count " ++ dec_of_N (pe_count e) ++ lit " in a component pool".
Definition event_pool_message (e : pool_error unit) : str :=
  lit "error while parsing an event after " ++ dec_of_N (pe_count e) ++ lit " lines, content: " ++ pe_content e.
Definition more_block_pool_message (e : pool_error more_block_error) : str := lit "error while parsing moreblock at count " ++ dec_of_N (pe_count e).
Definition container_message (e : block_container_error) : str := lit "error while parsing a block of a block container".
(** parser/logic.rs L256-303 *)
Definition logic_message (e : logic_error) : str :=
  let at_line n := lit " at line " ++ dec_of_N n in
  match e with
  | LVariablePool screen n _ => lit "error while parsing variable pool of screen " ++ screen ++ at_line n
  | LListVariablePool screen n _ => lit "error while parsing list variable pool of screen " ++ screen ++ at_line n
  | LComponentPool screen n _ => lit "error while parsing component pool of screen " ++ screen ++ at_line n
  | LEventPool screen n _ => lit "error while parsing event pool of screen " ++ screen ++ at_line n
  | LMoreBlockPool screen n _ => lit "error while parsing more block pool of screen " ++ screen ++ at_line n
  | LHeader n _ => lit "error while parsing a block container header" ++ at_line n
  | LBlockContainer screen container n _ => lit "error while parsing a block container of screen " ++ screen ++ lit " container " ++ container ++ at_line n
  end.
Definition logic_chain (e : logic_error) : list str :=
  logic_message e ::
  match e with
  | LVariablePool _ _ p => variable_pool_message p :: variable_chain (pe_source p)
  | LListVariablePool _ _ p => list_variable_pool_message p :: list_variable_chain (pe_source p)
  | LComponentPool _ _ p => [component_pool_message p]
  | LEventPool _ _ p => [event_pool_message p]
  | LMoreBlockPool _ _ p => more_block_pool_message p :: more_block_chain (pe_source p)
  | LHeader _ h => header_chain h
  | LBlockContainer _ _ _ b => [container_message b]
  end.
(** parser/mod.rs L431-440 *)
Definition res_files_message (dbg : str -> str) (e : res_files_error) : str :=
  match e with
  | FileDoesntExist path => lit "file `" ++ dbg path ++ lit "` does not exist"
  | InvalidPath path => lit "path given `" ++ dbg path ++ lit "` is invalid (are you sure its pointing to a sketchware's resources folder?)"
  end.
(** parser/mod.rs L243-264 *)
Definition parse_chain (dbg : str -> str) (e : parse_error) : list str :=
  match e with
  | PeProject _ => [lit "failed to parse the data file `project`"]
  | PeFile e => [lit "failed to parse the data file `file`"; file_message e]
  | PeLibrary e => [lit "failed to parse the data file `library`"; library_message e]
  | PeResource e => [lit "failed to parse the data file `resource`"; resource_message e]
  | PeView e => lit "failed to parse the data file `view`" :: view_chain e
  | PeLogic e => lit "failed to parse the data file `logic`" :: logic_chain e
  | PeResourceFiles e => [lit "failed retrieve resource files"; res_files_message dbg e]
  end.

(** ** API *)
(** the [IntErrorKind] of a text that is not a number up to [max] ([uN::from_str] of std): digits are read from the left, the first
    character that is not one or the first digit that makes the number too large decides *)
Inductive int_error := IeEmpty | IeInvalidDigit | IePosOverflow.
Fixpoint int_error_of (max : N) (ds : str) (acc : N) : int_error :=
  match ds with
  | [] => IeInvalidDigit
  | c :: r =>
    match to_digit 10 c with
    | None => IeInvalidDigit
    | Some d => let v := acc * 10 + d in if max <? v then IePosOverflow else int_error_of max r v
    end
  end.
Definition u32_error (s : str) : int_error :=
  match s with
  | [] => IeEmpty
  | 43 :: r => int_error_of U32MAX r 0
  | _ => int_error_of U32MAX s 0
  end.
(** derive(Debug) of std's ParseIntError *)
Definition int_error_debug (e : int_error) : str :=
  lit "ParseIntError { kind: " ++ (match e with IeEmpty => lit "Empty" | IeInvalidDigit => lit "InvalidDigit" | IePosOverflow => lit "PosOverflow" end) ++ lit " }".
(** api/block.rs L972-1000 *)
Definition content_message (e : content_error) : str :=
  match e with
  | CeBlockNotFound id => lit "block with id " ++ dec_of_N id ++ lit " not found"
  | CeInvalidBlockId v => lit "invalid block id given on params while referencing a block argument: `" ++ v ++ lit "`"
  | CeUnknownSpecParam name _ => lit "unknown spec parameter: " ++ name
  | CeRanOutOfArgs => lit "not enough arguments is given"
  | CeInvalidNumberArgument v => lit "invalid argument given on a number-typed parameter: " ++ v
  | CeInvalidBooleanArgument v => lit "invalid argument given on a boolean-typed parameter: " ++ v
  end.
(** the same, derive(Debug) *)
Definition content_debug (dbg : str -> str) (e : content_error) : str :=
  match e with
  | CeBlockNotFound id => lit "BlockNotFound { block_id: " ++ dec_of_N id ++ lit " }"
  | CeInvalidBlockId v => lit "InvalidBlockId { value: " ++ dbg v ++ lit " }"
  | CeUnknownSpecParam name full => lit "UnknownSpecParam { name: " ++ dbg name ++ lit ", full: " ++ dbg full ++ lit " }"
  | CeRanOutOfArgs => lit "RanOutOfArgs"
  | CeInvalidNumberArgument v => lit "InvalidNumberArgument { value: " ++ dbg v ++ lit " }"
  | CeInvalidBooleanArgument v => lit "InvalidBooleanArgument { value: " ++ dbg v ++ lit " }"
  end.
(** api/block.rs L514-518 *)
Definition block_type_message (e : invalid_block_type) : str :=
  lit "invalid block type / type name. block type: " ++ ibt_type e ++ lit ", type name: " ++ ibt_name e.
(** api/block.rs L105-138 *)
Definition conv_message (dbg : str -> str) (e : conv_error) : str :=
  match e with
  | MalformedBlockId id => lit "malformed block id: " ++ id ++ lit ": " ++ int_error_debug (u32_error id)
  | BlockNotFound id => lit "block with id " ++ dec_of_N id ++ lit " not found"
  | Substack1ParseError id _ _ => lit "error while parsing substack1 of block with id `" ++ dec_of_N id ++ lit "`"
  | Substack2ParseError id _ _ => lit "error while parsing substack2 of block with id `" ++ dec_of_N id ++ lit "`"
  | InvalidType t => lit "invalid block type: `" ++ ibt_type t ++ lit "`"
  | BlockContentParseError c => lit "error while parsing the block content: " ++ content_debug dbg c
  end.
Fixpoint conv_chain (dbg : str -> str) (e : conv_error) : list str :=
  conv_message dbg e ::
  match e with
  | Substack1ParseError _ _ s | Substack2ParseError _ _ s => conv_chain dbg s
  | InvalidType t => [block_type_message t]
  | BlockContentParseError c => [content_message c]
  | _ => []
  end.
(** api/block.rs L589-592 *)
Definition unknown_color_message (c : color) : str := lit "color " ++ color_display c ++ lit " does not correlate to any block category".
(** api/view.rs L461-469 *)
Definition view_type_message (e : view_type_error) : str :=
  match e with
  | UnknownViewType t id => lit "unknown view type `" ++ dec_of_N t ++ lit "` on view with id `" ++ id ++ lit "`"
  | ResNameNotPresent id =>
    lit "the field res_name on view with id `" ++ id ++ lit "` is not present when needed as this view is either a FAB or an ImageView"
  end.
(** api/view.rs L504-512 *)
Definition layout_message (e : layout_error) : str :=
  match e with
  | NoParentField id => lit "view with id " ++ id ++ lit " doesn't have a parent field"
  | NonexistentParent id parent => lit "couldn't find parent of view with id `" ++ id ++ lit "` (parent id: `" ++ parent ++ lit "`)"
  end.
Definition layout_debug (dbg : str -> str) (e : layout_error) : str :=
  match e with
  | NoParentField id => lit "NoParentField { view_id: " ++ dbg id ++ lit " }"
  | NonexistentParent id parent => lit "NonexistentParent { view_id: " ++ dbg id ++ lit ", parent_id: " ++ dbg parent ++ lit " }"
  end.
(** api/screen.rs L175-179, api/component.rs L99-103 *)
Definition event_type_message (e : unknown_event) : str := lit "unknown event type `" ++ dec_of_N (ue_type e) ++ lit "` for event `" ++ ue_name e ++ lit "`".
Definition component_type_message (e : unknown_component) : str :=
  lit "unknown component type `" ++ dec_of_N (uc_type e) ++ lit "` of component id " ++ uc_id e.
(** api/screen.rs L287-306 *)
Definition screen_chain (dbg : str -> str) (e : screen_error) : list str :=
  match e with
  | SeMoreBlockSpec id c => [lit "error while parsing the spec of the moreblock with id `" ++ id ++ lit "`"; content_message c]
  | SeBlocks name c => (lit "error while parsing the blocks of container `" ++ name ++ lit "`") :: conv_chain dbg c
  | SeUnknownEvent u => [event_type_message u; event_type_message u]
  | SeUnknownComponent u => [component_type_message u; component_type_message u]
  | SeLayout l => [lit "error while parsing the layout: `" ++ layout_debug dbg l ++ lit "`"; layout_message l]
  end.
(** api/mod.rs L229-233; the argument of the first format is the literal 0.0, which [Display] writes as 0 *)
Definition addition_message (dbg : str -> str) (e : addition_error) : str :=
  match e with
  | IdTaken _ => lit "resource id `0` is already taken"
  | AddFileDoesntExist path => lit "file `" ++ dbg path ++ lit "` does not exist"
  end.
(** api/mod.rs L454-484 *)
Definition project_chain (dbg : str -> str) (e : project_error) : list str :=
  match e with
  | XScreen _ layout_name s => (lit "error while reconstructing screen `" ++ layout_name ++ lit "`") :: screen_chain dbg s
  | XMissingCustomViewLayout id => [lit "couldn't find the layout of the custom view `" ++ id ++ lit "`"]
  | XCustomViewLayout id l => [lit "error while parsing the layout of custom view `" ++ id ++ lit "`"; layout_message l]
  | XInvalidUseYn name value => [lit "use_yn of library `" ++ name ++ lit "` has an invalid value `" ++ value ++ lit "` (expected `Y` or `N`)"]
  | XMissingResourceFile name _ _ => [lit "couldn't find a resource file matching with id `" ++ name ++ lit "`"]
  end.
(** lib.rs L69-76 *)
Definition crypto_message (e : crypto_error) : str :=
  match e with IOError => lit "io error" | DecryptionError => lit "decryption error" | FromUtf8Error => lit "couldn't convert binaries into utf8" end.
