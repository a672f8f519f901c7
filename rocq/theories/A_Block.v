(** Model of /repo/src/api/block.rs. *)
From Verif Require Import Base Dec Flt M_Color M_Logic.

(** ** Block types *)
(** block.rs L445-448, L435-443, L474-479, L428-433 *)
Inductive list_item := LiString | LiNumber.
Inductive return_type :=
| RBoolean | RString | RNumber | RView (type_name : str) | RComponent (type_name : str) | RList (inner : list_item).
Inductive block_control := OneNest | TwoNest | EndingBlock.
Inductive block_type := TRegular | TArgument (r : return_type) | TControl (c : block_control).
(** block.rs L461-472 *)
Definition list_item_from_str (s : str) : option list_item :=
  if str_eqb s (lit "List String") then Some LiString
  else if str_eqb s (lit "List Number") then Some LiNumber else None.
(** block.rs L450-457 *)
Definition list_item_into (i : list_item) : return_type := match i with LiString => RString | LiNumber => RNumber end.
(** block.rs L513-518 *)
Record invalid_block_type := { ibt_type : str; ibt_name : str }.
(** block.rs L482-499 *)
Definition block_type_from (s type_name : str) : res invalid_block_type block_type :=
  let bad := {| ibt_type := s; ibt_name := type_name |} in
  if str_eqb s (lit "v") then Ok (TArgument (RView type_name))
  else if str_eqb s (lit "p") then Ok (TArgument (RComponent type_name))
  else if str_eqb s (lit "b") then Ok (TArgument RBoolean)
  else if str_eqb s (lit "s") then Ok (TArgument RString)
  else if str_eqb s (lit "d") then Ok (TArgument RNumber)
  else if str_eqb s (lit "l") then
    let* i := ok_or bad (list_item_from_str type_name) in Ok (TArgument (RList i))
  else if str_eqb s (lit "c") then Ok (TControl OneNest)
  else if str_eqb s (lit "e") then Ok (TControl TwoNest)
  else if str_eqb s (lit "f") then Ok (TControl EndingBlock)
  else if str_eqb s (lit " ") then Ok TRegular
  else Err bad.
(** block.rs L502-510 *)
Definition get_typename (t : block_type) : option str :=
  match t with
  | TArgument (RView n) => Some n
  | TArgument (RComponent n) => Some n
  | _ => None
  end.
(** block.rs L520-535 *)
Definition block_type_to_string (t : block_type) : str :=
  match t with
  | TRegular => lit " "
  | TArgument RBoolean => lit "b"
  | TArgument RString => lit "s"
  | TArgument RNumber => lit "d"
  | TArgument (RView _) => lit "v"
  | TArgument (RComponent _) => lit "p"
  | TArgument (RList _) => lit "l"
  | TControl OneNest => lit "c"
  | TControl TwoNest => lit "e"
  | TControl EndingBlock => lit "f"
  end.

(** ** Categories *)
(** block.rs L537-549 *)
Inductive block_category :=
| CatVariable | CatList | CatControl | CatOperator | CatMath | CatFile | CatViewFunc | CatComponentFunc | CatMoreBlock.
(** block.rs L551-567 *)
Definition color_of_category (c : block_category) : color :=
  let '(r, g, b) := match c with
    | CatVariable => (0xee, 0x7d, 0x16)
    | CatList => (0xcc, 0x5b, 0x22)
    | CatControl => (0xe1, 0xa9, 0x2a)
    | CatOperator => (0x5c, 0xb7, 0x22)
    | CatMath => (0x23, 0xb9, 0xa9)
    | CatFile => (0xa1, 0x88, 0x7f)
    | CatViewFunc => (0x4a, 0x6c, 0xd4)
    | CatComponentFunc => (0xfc, 0xa5, 0xe2)
    | CatMoreBlock => (0x8a, 0x55, 0xd7)
    end in from_rgb r g b.
Definition rgb_eqb (a b : N * N * N) : bool :=
  let '(x, y, z) := a in let '(x', y', z') := b in (x =? x') && (y =? y') && (z =? z').
(** block.rs L569-586; the error carries the colour *)
Definition category_of_color (v : color) : res color block_category :=
  if rgb_eqb (rgb v) (0xee, 0x7d, 0x16) then Ok CatVariable
  else if rgb_eqb (rgb v) (0xcc, 0x5b, 0x22) then Ok CatList
  else if rgb_eqb (rgb v) (0xe1, 0xa9, 0x2a) then Ok CatControl
  else if rgb_eqb (rgb v) (0x5c, 0xb7, 0x22) then Ok CatOperator
  else if rgb_eqb (rgb v) (0x23, 0xb9, 0xa9) then Ok CatMath
  else if rgb_eqb (rgb v) (0xa1, 0x88, 0x7f) then Ok CatFile
  else if rgb_eqb (rgb v) (0x4a, 0x6c, 0xd4) then Ok CatViewFunc
  else if rgb_eqb (rgb v) (0xfc, 0xa5, 0xe2) then Ok CatComponentFunc
  else if rgb_eqb (rgb v) (0x8a, 0x55, 0xd7) then Ok CatMoreBlock
  else Err v.

(** ** Arguments, spec items, blocks *)
(** block.rs L1099-1109; [B] is the type of blocks *)
Inductive arg_value (B T : Type) : Type :=
| AValue (t : T)
| ABlock (b : B)
| APlaceholder (block_id : N)
| AEmpty.
Arguments AValue {B T} _.
Arguments ABlock {B T} _.
Arguments APlaceholder {B T} _.
Arguments AEmpty {B T}.
(** block.rs L1074-1097 *)
Inductive argument (B : Type) : Type :=
| ArgString (name : option str) (value : arg_value B str)
| ArgNumber (name : option str) (value : arg_value B flt)
| ArgBoolean (name : option str) (value : arg_value B bool)
| ArgMenu (name : str) (value : arg_value B str).
Arguments ArgString {B} _ _.
Arguments ArgNumber {B} _ _.
Arguments ArgBoolean {B} _ _.
Arguments ArgMenu {B} _ _.
(** block.rs L1037-1041 *)
Inductive spec_item (B : Type) : Type :=
| SText (s : str)
| SParam (a : argument B).
Arguments SText {B} _.
Arguments SParam {B} _.
(** block.rs L344-363; [BlockContent] (L595-598) is the list of its items, [Blocks] (L13) the list of its blocks *)
Inductive ablock : Type :=
| MkBlock (sub_stack1 sub_stack2 : option (list ablock)) (col : color) (op_code : str)
          (content : list (spec_item ablock)) (ty : block_type).
Definition blocks := list ablock.
(** block.rs L328-332, L334-341: the default is empty; iterating yields the blocks of the vector in order *)
Definition blocks_default : blocks := [].
Definition blocks_into_iter (l : blocks) : list ablock := l.
Definition ab_sub_stack1 (b : ablock) := match b with MkBlock s _ _ _ _ _ => s end.
Definition ab_sub_stack2 (b : ablock) := match b with MkBlock _ s _ _ _ _ => s end.
Definition ab_color (b : ablock) := match b with MkBlock _ _ c _ _ _ => c end.
Definition ab_op_code (b : ablock) := match b with MkBlock _ _ _ o _ _ => o end.
Definition ab_content (b : ablock) := match b with MkBlock _ _ _ _ c _ => c end.
Definition ab_type (b : ablock) := match b with MkBlock _ _ _ _ _ t => t end.
(** block.rs L367-381 *)
Definition block_new (c : block_category) (op : str) (content : list (spec_item ablock)) (t : block_type) : ablock :=
  MkBlock None None (color_of_category c) op content t.
(** block.rs L385-399 *)
Definition block_new_1substack (c : block_category) (op : str) (content : list (spec_item ablock)) (s1 : blocks) : ablock :=
  MkBlock (Some s1) None (color_of_category c) op content (TControl OneNest).
(** block.rs L403-418 *)
Definition block_new_2substack (c : block_category) (op : str) (content : list (spec_item ablock)) (s1 s2 : blocks) : ablock :=
  MkBlock (Some s1) (Some s2) (color_of_category c) op content (TControl TwoNest).
(** block.rs L421-423 *)
Definition block_category_of (b : ablock) : res color block_category := category_of_color (ab_color b).

(** ** Block content *)
(** block.rs L971-1001 *)
Inductive content_error :=
| CeBlockNotFound (block_id : N)
| CeInvalidBlockId (value : str)
| CeUnknownSpecParam (name full : str)
| CeRanOutOfArgs
| CeInvalidNumberArgument (value : str)
| CeInvalidBooleanArgument (value : str).
Definition CH_PERCENT : char := 37.
Definition CH_SPACE : char := 32.
(** [bool::from_str], [bool::to_string] *)
Definition parse_bool (s : str) : option bool :=
  if str_eqb s (lit "true") then Some true else if str_eqb s (lit "false") then Some false else None.
Definition bool_to_string (b : bool) : str := if b then lit "true" else lit "false".
(** block.rs L611-616, L645-650: name of a spec parameter; [&s[3..]] may panic *)
Definition spec_name (s : str) : res content_error (option str) :=
  let has_name := match nth_error s 2 with Some c => (c =? CH_DOT) && (3 <? blen s)%nat | None => false end in
  if has_name then let* n := unwrap (bdrop 3 s) in Ok (Some n) else Ok None.
Section Content.
  Context {B : Type}.
  (** block.rs L618-627 *)
  Definition token_wo_params (s : str) : res content_error (argument B) :=
    let* name := spec_name s in
    let* c := unwrap (nth_error s 1) in
    if c =? 115 then Ok (ArgString name AEmpty)
    else if c =? 98 then Ok (ArgBoolean name AEmpty)
    else if c =? 100 then Ok (ArgNumber name AEmpty)
    else if c =? 109 then let* n := unwrap name in Ok (ArgMenu n AEmpty)
    else Err (CeUnknownSpecParam [c] s).
  (** block.rs L604-630, the loop *)
  Fixpoint items_wo_params (ts : list str) : res content_error (list (spec_item B)) :=
    match ts with
    | [] => Ok []
    | s :: r =>
      let* i := (if starts_with [CH_PERCENT] s then let* a := token_wo_params s in Ok (SParam a) else Ok (SText s)) in
      let* is := items_wo_params r in Ok (i :: is)
    end.
  (** block.rs L602-633 *)
  Definition parse_wo_params (spec : str) : res content_error (list (spec_item B)) :=
    items_wo_params (split_on CH_SPACE spec).

  (** block.rs L656-657 and its copies: [args.is_empty()], [args.remove(0)] *)
  Definition take_arg (args : list str) : res content_error (str * list str) :=
    match args with [] => Err CeRanOutOfArgs | a :: r => Ok (a, r) end.
  (** block.rs L659-667 and its copies: a block reference or a literal value *)
  Definition value_or_block {T} (f : str -> res content_error T) (v : str) : res content_error (arg_value B T) :=
    if starts_with [AT] v
    then let* r := unwrap (bdrop 1 v) in
         let* n := ok_or (CeInvalidBlockId v) (parse_u32 r) in Ok (APlaceholder n)
    else let* t := f v in Ok (AValue t).
  (** block.rs L683-690, L707-714 *)
  Definition number_arg (v : str) : res content_error flt := ok_or (CeInvalidNumberArgument v) (parse_f64 v).
  Definition boolean_arg (v : str) : res content_error bool := ok_or (CeInvalidBooleanArgument v) (parse_bool v).
  (** block.rs L652-725 *)
  Definition token_parse (s : str) (args : list str) : res content_error (argument B * list str) :=
    let* name := spec_name s in
    let* c := unwrap (nth_error s 1) in
    if c =? 115 then
      let* (v, args') := take_arg args in let* a := value_or_block Ok v in Ok (ArgString name a, args')
    else if c =? 98 then
      let* (v, args') := take_arg args in let* a := value_or_block boolean_arg v in Ok (ArgBoolean name a, args')
    else if c =? 100 then
      let* (v, args') := take_arg args in let* a := value_or_block number_arg v in Ok (ArgNumber name a, args')
    else if c =? 109 then
      let* n := unwrap name in
      let* (v, args') := take_arg args in Ok (ArgMenu n (AValue v), args')
    else Err (CeUnknownSpecParam [c] s).
  Fixpoint items_parse (ts : list str) (args : list str) : res content_error (list (spec_item B)) :=
    match ts with
    | [] => Ok []
    | s :: r =>
      if starts_with [CH_PERCENT] s
      then let* (a, args') := token_parse s args in
           let* is := items_parse r args' in Ok (SParam a :: is)
      else let* is := items_parse r args in Ok (SText s :: is)
    end.
  (** block.rs L635-732 *)
  Definition content_parse (spec : str) (args : list str) : res content_error (list (spec_item B)) :=
    items_parse (split_on CH_SPACE spec) args.

  (** block.rs L743-755 and its copies: only [ArgValue::Empty] consumes an argument *)
  Definition apply_value {T} (f : str -> res content_error T) (v : arg_value B T) (args : list str)
    : res content_error (arg_value B T * list str) :=
    match v with
    | AEmpty => let* (a, args') := take_arg args in let* w := value_or_block f a in Ok (w, args')
    | _ => Ok (v, args)
    end.
  (** block.rs L738-826 *)
  Definition apply_arg (a : argument B) (args : list str) : res content_error (argument B * list str) :=
    match a with
    | ArgString n v => let* (w, r) := apply_value Ok v args in Ok (ArgString n w, r)
    | ArgNumber n v => let* (w, r) := apply_value number_arg v args in Ok (ArgNumber n w, r)
    | ArgBoolean n v => let* (w, r) := apply_value boolean_arg v args in Ok (ArgBoolean n w, r)
    | ArgMenu n v => let* (w, r) := apply_value Ok v args in Ok (ArgMenu n w, r)
    end.
  (** block.rs L735-829 *)
  Fixpoint apply_args (items : list (spec_item B)) (args : list str) : res content_error (list (spec_item B)) :=
    match items with
    | [] => Ok []
    | SText s :: r => let* is := apply_args r args in Ok (SText s :: is)
    | SParam a :: r => let* (b, args') := apply_arg a args in
                       let* is := apply_args r args' in Ok (SParam b :: is)
    end.

  (** block.rs L900-909 *)
  Definition get_args (items : list (spec_item B)) : list (argument B) :=
    flat_map (fun i => match i with SText _ => [] | SParam a => [a] end) items.
  (** block.rs L939-951 *)
  Definition empty_arg (a : argument B) : argument B :=
    match a with
    | ArgString n _ => ArgString n AEmpty
    | ArgNumber n _ => ArgNumber n AEmpty
    | ArgBoolean n _ => ArgBoolean n AEmpty
    | ArgMenu n _ => ArgMenu n AEmpty
    end.
  (** block.rs L927-964 *)
  Definition take_args (items : list (spec_item B)) : list (spec_item B) * list (argument B) :=
    (map (fun i => match i with SText s => SText s | SParam a => SParam (empty_arg a) end) items, get_args items).

  (** block.rs L912-922. [get_args_mut] hands out references to the arguments in order; this is the content after the
      caller has written [args] through them, one for each reference *)
  Fixpoint set_args (items : list (spec_item B)) (args : list (argument B)) : list (spec_item B) :=
    match items, args with
    | SParam _ :: r, a :: args' => SParam a :: set_args r args'
    | i :: r, _ => i :: set_args r args
    | [], _ => []
    end.
  (** block.rs L966-968, L1118-1121, L1124-1127, L1130-1132: the builder holds the items added so far *)
  Definition builder_new : list (spec_item B) := [].
  Definition builder_text (b : list (spec_item B)) (s : str) : list (spec_item B) := b ++ [SText s].
  Definition builder_arg (b : list (spec_item B)) (a : argument B) : list (spec_item B) := b ++ [SParam a].
  Definition builder_build (b : list (spec_item B)) : list (spec_item B) := b.

  (** block.rs L1008-1028, one item without the space that follows it *)
  Definition arg_spec (a : argument B) : str :=
    match a with
    | ArgString n _ => lit "%s" ++ match n with Some x => CH_DOT :: x | None => [] end
    | ArgNumber n _ => lit "%d" ++ match n with Some x => CH_DOT :: x | None => [] end
    | ArgBoolean n _ => lit "%b" ++ match n with Some x => CH_DOT :: x | None => [] end
    | ArgMenu x _ => lit "%m" ++ CH_DOT :: x
    end.
  Definition item_spec (i : spec_item B) : str := match i with SText s => s | SParam a => arg_spec a end.
  (** block.rs L1003-1035: every item is followed by a space, then the last char is popped *)
  Definition content_to_string (items : list (spec_item B)) : str :=
    removelast (flat_map (fun i => item_spec i ++ [CH_SPACE]) items).
End Content.

(** ** From raw blocks to blocks *)
(** block.rs L103-139 *)
Inductive conv_error :=
| MalformedBlockId (id : str)
| BlockNotFound (id : N)
| Substack1ParseError (id ptr : N) (source : conv_error)
| Substack2ParseError (id ptr : N) (source : conv_error)
| InvalidType (source : invalid_block_type)
| BlockContentParseError (source : content_error).
(** [LinkedHashMap<u32, ParserBlock>] *)
Definition bmap := list (N * block).
Definition bget (k : N) (m : bmap) : option block := lget N.eqb k m.
Definition bremove (k : N) (m : bmap) : bmap := lremove N.eqb k m.
Definition binsert (k : N) (b : block) (m : bmap) : bmap := linsert N.eqb k b m.
(** block.rs L20-33 *)
Fixpoint to_map (l : list block) (acc : bmap) : res conv_error bmap :=
  match l with
  | [] => Ok acc
  | b :: r => let* n := ok_or (MalformedBlockId (bl_id b)) (parse_u32 (bl_id b)) in to_map r (binsert n b acc)
  end.

(** A computation that may not have finished: [None] means that the recursion depth given to the interpreter was
    not enough. [Rust]'s recursion has no bound; C27 shows that a finite depth always suffices. *)
Definition out (E A : Type) := option (res E A).
Definition obnd {E A C} (x : out E A) (f : A -> out E C) : out E C :=
  match x with
  | None => None
  | Some (Ok a) => f a
  | Some (Err e) => Some (Err e)
  | Some Panic => Some Panic
  end.
Notation "'let!' x ':=' e 'in' k" := (obnd e (fun x => k))
  (at level 200, x pattern, e at level 100, k at level 200, right associativity).
Definition omap_err {E F A} (f : E -> F) (x : out E A) : out F A := option_map (map_err f) x.

(** block.rs L832-897. [get] is the closure with its captured state of type [S]; its answer [Err _] is [None] in Rust
    (after which the state is not used any more) *)
Section Fill.
  Context {S E B : Type} (get : N -> S -> out E (B * S)) (op : B -> str).
  Definition get_block (id : N) (s : S) : out content_error (B * S) := omap_err (fun _ => CeBlockNotFound id) (get id s).
  Definition fill_value {T} (v : arg_value B T) (s : S) : out content_error (arg_value B T * S) :=
    match v with
    | APlaceholder id => let! (b, s') := get_block id s in Some (Ok (ABlock b, s'))
    | _ => Some (Ok (v, s))
    end.
  (** block.rs L864-880 *)
  Definition fill_boolean (v : arg_value B bool) (s : S) : out content_error (arg_value B bool * S) :=
    match v with
    | APlaceholder id =>
      let! (b, s') := get_block id s in
      Some (Ok (if str_eqb (op b) (lit "true") then AValue true
                else if str_eqb (op b) (lit "false") then AValue false else ABlock b, s'))
    | _ => Some (Ok (v, s))
    end.
  Definition fill_arg (a : argument B) (s : S) : out content_error (argument B * S) :=
    match a with
    | ArgString n v => let! (w, s') := fill_value v s in Some (Ok (ArgString n w, s'))
    | ArgNumber n v => let! (w, s') := fill_value v s in Some (Ok (ArgNumber n w, s'))
    | ArgBoolean n v => let! (w, s') := fill_boolean v s in Some (Ok (ArgBoolean n w, s'))
    | ArgMenu n v => let! (w, s') := fill_value v s in Some (Ok (ArgMenu n w, s'))
    end.
  Fixpoint apply_blocks (items : list (spec_item B)) (s : S) : out content_error (list (spec_item B) * S) :=
    match items with
    | [] => Some (Ok ([], s))
    | SText t :: r => let! (is, s') := apply_blocks r s in Some (Ok (SText t :: is, s'))
    | SParam a :: r => let! (b, s') := fill_arg a s in
                       let! (is, s'') := apply_blocks r s' in Some (Ok (SParam b :: is, s''))
    end.
End Fill.

(** block.rs L35-71 and L73-94. [as u32] of a non-negative i32 is [Z.to_N]. The parameter [depth] bounds the
    recursion; a loop iteration of [parse_blocks] counts as a recursive call. *)
Fixpoint parse_block (depth : nat) (id : N) (m : bmap) {struct depth} : out conv_error (ablock * bmap) :=
  match depth with
  | O => None
  | S d =>
    let! pb := Some (ok_or (BlockNotFound id) (bget id m)) in
    let m0 := bremove id m in
    let! (s1, m1) := (if (bl_sub_stack1 pb <? 0)%Z then Some (Ok (None, m0)) else
                        let! (s, m1) := omap_err (Substack1ParseError id (Z.to_N (bl_sub_stack1 pb)))
                                          (parse_blocks d (Z.to_N (bl_sub_stack1 pb)) m0) in Some (Ok (Some s, m1))) in
    let! (s2, m2) := (if (bl_sub_stack2 pb <? 0)%Z then Some (Ok (None, m1)) else
                        let! (s, m2) := omap_err (Substack2ParseError id (Z.to_N (bl_sub_stack2 pb)))
                                          (parse_blocks d (Z.to_N (bl_sub_stack2 pb)) m1) in Some (Ok (Some s, m2))) in
    let! items := Some (map_err BlockContentParseError (content_parse (bl_spec pb) (bl_parameters pb))) in
    let! (items', m3) := omap_err BlockContentParseError (apply_blocks (parse_block d) ab_op_code items m2) in
    let! ty := Some (map_err InvalidType (block_type_from (bl_type pb) (bl_type_name pb))) in
    Some (Ok (MkBlock s1 s2 (bl_color pb) (bl_op_code pb) items' ty, m3))
  end
with parse_blocks (depth : nat) (id : N) (m : bmap) {struct depth} : out conv_error (blocks * bmap) :=
  match depth with
  | O => None
  | S d =>
    let! pb := Some (ok_or (BlockNotFound id) (bget id m)) in
    let! (b, m1) := parse_block d id m in
    if (bl_next_block pb <? 0)%Z then Some (Ok ([b], m1))
    else let! (bs, m2) := parse_blocks d (Z.to_N (bl_next_block pb)) m1 in Some (Ok (b :: bs, m2))
  end.

(** block.rs L19-100, with a given recursion depth *)
Definition try_from_depth (depth : nat) (c : list block) : out conv_error blocks :=
  let! m := Some (to_map c []) in
  match m with
  | [] => Some (Ok [])
  | (id, _) :: _ => let! (bs, _) := parse_blocks depth id m in Some (Ok bs)
  end.
(** a depth that is always enough (C27) *)
Definition enough (c : list block) : nat := 2 * length c + 2.
(** block.rs L16-101, [Blocks::try_from] *)
Definition blocks_try_from (c : list block) : res conv_error blocks :=
  match try_from_depth (enough c) c with Some r => r | None => Panic end.

(** ** From blocks to raw blocks *)
(** block.rs L279-287 with L162-233: the raw block written for a boolean literal; [convert_literal] in
    BlockWriteProofs.v shows that it is what [convert_block] makes of the block built there *)
Definition literal_block (v : bool) : ablock :=
  block_new CatOperator (bool_to_string v) [SText (bool_to_string v)] (TArgument RBoolean).
Definition literal_raw (v : bool) (id : N) : block :=
  {| bl_color := color_of_category CatOperator; bl_id := dec_of_N id; bl_next_block := (-1)%Z;
     bl_op_code := bool_to_string v; bl_parameters := []; bl_spec := bool_to_string v;
     bl_sub_stack1 := (-1)%Z; bl_sub_stack2 := (-1)%Z; bl_type := lit "b"; bl_type_name := [] |}.
(** block.rs L180-190: the id of the last block of a sub stack, -1 if it is empty; the [unwrap] panics beyond i32 *)
Definition last_id (l : list block) : res unit Z :=
  match rev l with [] => Ok (-1)%Z | b :: _ => unwrap (parse_i32 (bl_id b)) end.
Section Convert.
  (** [convert_block]: block, value of the counter, is it the last one -> emitted blocks, new value of the counter *)
  Context (conv : ablock -> N -> bool -> res unit (list block * N)).
  (** block.rs L250-258 and its copies: the parameter text, the emitted blocks, the counter. The reference is
      the counter after the conversion. *)
  Definition conv_value {T} (f : T -> str) (v : arg_value ablock T) (c : N) : res unit (str * list block * N) :=
    match v with
    | AValue t => Ok (f t, [], c)
    | ABlock b => let* (bs, c') := conv b c true in Ok (lit "@" ++ dec_of_N c', bs, c')
    | APlaceholder _ => Panic
    | AEmpty => Ok ([], [], c)
    end.
  (** block.rs L247-312 *)
  Definition conv_arg (a : argument ablock) (c : N) : res unit (str * list block * N) :=
    match a with
    | ArgString _ v => conv_value (fun x => x) v c
    | ArgNumber _ v => conv_value display_f64 v c
    | ArgBoolean _ v =>
      match v with
      | AValue t => Ok (lit "@" ++ dec_of_N (c + 1), [literal_raw t (c + 1)], c + 1)
      | _ => conv_value bool_to_string v c
      end
    | ArgMenu _ v => conv_value (fun x => x) v c
    end.
  (** block.rs L239-316 *)
  Fixpoint conv_args (items : list (spec_item ablock)) (c : N) : res unit (list str * list block * N) :=
    match items with
    | [] => Ok ([], [], c)
    | SText _ :: r => conv_args r c
    | SParam a :: r =>
      let* (p, bs, c1) := conv_arg a c in
      let* (ps, bs', c2) := conv_args r c1 in Ok (p :: ps, bs ++ bs', c2)
    end.
  (** block.rs L141-145 ([new] is the empty list), L147-154: the blocks of one stack, the counter starting at [c] = starts_with - 1 *)
  Fixpoint conv_stack (l : list ablock) (c : N) : res unit (list block * N) :=
    match l with
    | [] => Ok ([], c)
    | b :: r =>
      let* (x, c1) := conv b c (match r with [] => true | _ => false end) in
      let* (y, c2) := conv_stack r c1 in Ok (x ++ y, c2)
    end.
  (** block.rs L178-204: the pointer, the blocks and the counter (an empty stack is written as -1) *)
  Definition conv_sub (s : option (list ablock)) (c : N) : res unit (Z * list block * N) :=
    match s with
    | None => Ok ((-1)%Z, [], c)
    | Some l =>
      let* (bs, _) := conv_stack l c in
      let* z := last_id bs in
      Ok (z, bs, if (z =? -1)%Z then c else u32_of_i32 z)
    end.
End Convert.
(** block.rs L162-236. The u32 counter is an unbounded number here; [as i32] wraps. *)
Fixpoint convert_block (b : ablock) (c : N) (is_last : bool) {struct b} : res unit (list block * N) :=
  match b with
  | MkBlock ss1 ss2 col op items ty =>
    let id := c + 1 in
    let* (params, block_args, c1) := conv_args convert_block items id in
    let* (s1, b1, c2) := conv_sub convert_block ss1 c1 in
    let* (s2, b2, c3) := conv_sub convert_block ss2 c2 in
    Ok ({| bl_color := col; bl_id := dec_of_N id;
           bl_next_block := if is_last then (-1)%Z else i32_of_u32 (c3 + 1);
           bl_op_code := op; bl_parameters := params; bl_spec := content_to_string (fst (take_args items));
           bl_sub_stack1 := s1; bl_sub_stack2 := s2;
           bl_type := block_type_to_string ty;
           bl_type_name := match get_typename ty with Some n => n | None => [] end |} :: block_args ++ b1 ++ b2, c3)
  end.
(** block.rs L147-319 *)
Definition to_block_container (l : blocks) (starts_with : N) : res unit (list block) :=
  rmap fst (conv_stack convert_block l (starts_with - 1)).
(** block.rs L322-326 *)
Definition blocks_into (l : blocks) : res unit (list block) := to_block_container l 10.
