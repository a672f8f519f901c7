(** Small specifications about blocks, used in the statements of P_Block.v. *)
From Verif Require Import Base Dec Flt A_Block M_Logic SpecJson SpecNumber.

(** ** Specs *)
(** the words of a spec, separated by single spaces *)
Definition words (spec : str) (ts : list str) : Prop :=
  ts <> [] /\ Forall (fun t => ~ In 32 t) ts /\ spec = join 32 ts.
Definition is_param (t : str) : Prop := exists r, t = 37 :: r.
(** %s %b %d with an optional non-empty name, %m with a non-empty name *)
Inductive written_param : str -> Prop :=
| wp_bare c : In c (lit "sbd") -> written_param [37; c]
| wp_named c n : In c (lit "sbdm") -> n <> [] -> written_param (37 :: c :: 46 :: n).
(** an item that the spec text determines *)
Definition name_ok (n : option str) : Prop := match n with Some x => x <> [] /\ ~ In 32 x | None => True end.
Definition arg_name {B} (a : argument B) : option str :=
  match a with ArgString n _ | ArgNumber n _ | ArgBoolean n _ => n | ArgMenu n _ => Some n end.
Definition is_empty {B} (a : argument B) : Prop :=
  match a with
  | ArgString _ v => v = AEmpty
  | ArgNumber _ v => v = AEmpty
  | ArgBoolean _ v => v = AEmpty
  | ArgMenu _ v => v = AEmpty
  end.
Definition text_ok (t : str) : Prop := ~ In 32 t /\ ~ is_param t.
Definition plain_item {B} (i : spec_item B) : Prop :=
  match i with SText t => text_ok t | SParam a => name_ok (arg_name a) /\ is_empty a end.

(** ** Arguments *)
(** the letter of a parameter word and its name (a dot and a non-empty rest) *)
Definition param_word (t : str) (letter : string) (n : option str) : Prop :=
  exists r, t = 37 :: lit letter ++ r /\
    match n with Some x => x <> [] /\ r = 46 :: x | None => forall x, x <> [] -> r <> 46 :: x end.
(** what an argument text stands for *)
Definition boolean_text (a : str) (b : bool) : Prop := a = lit (if b then "true" else "false").
Definition reads_as {B T} (value : str -> T -> Prop) (a : str) (v : arg_value B T) : Prop :=
  match v with
  | AValue t => (forall r, a <> 64 :: r) /\ value a t
  | APlaceholder id => exists r, a = 64 :: r /\ parse_u32 r = Some id
  | _ => False
  end.
(** [words] and arguments give these items *)
Inductive gives {B} : list str -> list str -> list (spec_item B) -> Prop :=
| gives_nil args : gives [] args []
| gives_text t ts args is : ~ is_param t -> gives ts args is -> gives (t :: ts) args (SText t :: is)
| gives_string t n a v ts args is : param_word t "s" n -> reads_as eq a v ->
    gives ts args is -> gives (t :: ts) (a :: args) (SParam (ArgString n v) :: is)
| gives_boolean t n a v ts args is : param_word t "b" n -> reads_as boolean_text a v ->
    gives ts args is -> gives (t :: ts) (a :: args) (SParam (ArgBoolean n v) :: is)
| gives_number t n a v ts args is : param_word t "d" n -> reads_as number_text a v ->
    gives ts args is -> gives (t :: ts) (a :: args) (SParam (ArgNumber n v) :: is)
| gives_menu t n a ts args is : param_word t "m" (Some n) ->
    gives ts args is -> gives (t :: ts) (a :: args) (SParam (ArgMenu n (AValue a)) :: is).
(** an argument text and the parameter that carries it *)
Inductive carries {B} : str -> argument B -> Prop :=
| carries_string n a v : reads_as eq a v -> carries a (ArgString n v)
| carries_boolean n a v : reads_as boolean_text a v -> carries a (ArgBoolean n v)
| carries_number n a v : reads_as number_text a v -> carries a (ArgNumber n v)
| carries_menu n a : carries a (ArgMenu n (AValue a)).

(** the number after @, or the id of a raw block: decimal digits, possibly after +, below 2^32 *)
Definition id_text (t : str) (n : N) : Prop :=
  exists sign ds, t = sign ++ ds /\ In sign [[]; lit "+"] /\ digits ds /\ Z.of_N n = decimal ds /\ n < 4294967296.
(** the type of a block, from the letter and the name stored for it *)
Inductive type_text : str -> str -> block_type -> Prop :=
| type_regular name : type_text (lit " ") name TRegular
| type_view name : type_text (lit "v") name (TArgument (RView name))
| type_component name : type_text (lit "p") name (TArgument (RComponent name))
| type_boolean name : type_text (lit "b") name (TArgument RBoolean)
| type_string name : type_text (lit "s") name (TArgument RString)
| type_number name : type_text (lit "d") name (TArgument RNumber)
| type_strings : type_text (lit "l") (lit "List String") (TArgument (RList LiString))
| type_numbers : type_text (lit "l") (lit "List Number") (TArgument (RList LiNumber))
| type_nest name : type_text (lit "c") name (TControl OneNest)
| type_two_nests name : type_text (lit "e") name (TControl TwoNest)
| type_ending name : type_text (lit "f") name (TControl EndingBlock).

(** ** Reading a container as a graph *)
(** the raw block that an id stands for: the last one with that id *)
Definition graph (c : list block) (id : N) (pb : block) : Prop :=
  exists a r, c = a ++ pb :: r /\ parse_u32 (bl_id pb) = Some id /\ Forall (fun x => parse_u32 (bl_id x) <> Some id) r.
(** the id where reading starts: that of the first raw block whose id does not come again *)
Definition start (c : list block) (id : N) : Prop :=
  exists a pb r, c = a ++ pb :: r /\ parse_u32 (bl_id pb) = Some id /\
    Forall (fun x => parse_u32 (bl_id x) <> Some id) r /\
    forall a1 x a2, a = a1 ++ x :: a2 -> exists y, In y (a2 ++ pb :: r) /\ parse_u32 (bl_id y) = parse_u32 (bl_id x).
Section Reading.
  Context (G : N -> block -> Prop).
  (** [reads_block id b u]: following the pointers from the raw block [id] gives the tree [b]; [u] lists the raw
      blocks used, with repetitions *)
  Inductive reads_block : N -> ablock -> list N -> Prop :=
  | rd_block id pb ws holes s1 u1 s2 u2 items u3 ty :
      G id pb ->
      reads_sub (bl_sub_stack1 pb) s1 u1 ->
      reads_sub (bl_sub_stack2 pb) s2 u2 ->
      words (bl_spec pb) ws -> gives ws (bl_parameters pb) holes -> reads_items holes items u3 ->
      type_text (bl_type pb) (bl_type_name pb) ty ->
      reads_block id (MkBlock s1 s2 (bl_color pb) (bl_op_code pb) items ty) (id :: u1 ++ u2 ++ u3)
  with reads_sub : Z -> option (list ablock) -> list N -> Prop :=
  | rd_none z : (z < 0)%Z -> reads_sub z None []
  | rd_some z l u : (0 <= z)%Z -> reads_stack (Z.to_N z) l u -> reads_sub z (Some l) u
  with reads_stack : N -> list ablock -> list N -> Prop :=
  | rd_last id pb b u : G id pb -> (bl_next_block pb < 0)%Z -> reads_block id b u -> reads_stack id [b] u
  | rd_next id pb b u l v : G id pb -> (0 <= bl_next_block pb)%Z -> reads_block id b u ->
      reads_stack (Z.to_N (bl_next_block pb)) l v -> reads_stack id (b :: l) (u ++ v)
  with reads_items : list (spec_item ablock) -> list (spec_item ablock) -> list N -> Prop :=
  | rd_nil : reads_items [] [] []
  | rd_text t h i u : reads_items h i u -> reads_items (SText t :: h) (SText t :: i) u
  | rd_arg a b v h i u : reads_arg a b v -> reads_items h i u -> reads_items (SParam a :: h) (SParam b :: i) (v ++ u)
  with reads_arg : argument ablock -> argument ablock -> list N -> Prop :=
  | rd_string_value n t : reads_arg (ArgString n (AValue t)) (ArgString n (AValue t)) []
  | rd_number_value n t : reads_arg (ArgNumber n (AValue t)) (ArgNumber n (AValue t)) []
  | rd_boolean_value n t : reads_arg (ArgBoolean n (AValue t)) (ArgBoolean n (AValue t)) []
  | rd_menu_value n t : reads_arg (ArgMenu n (AValue t)) (ArgMenu n (AValue t)) []
  | rd_string_block n id b u : reads_block id b u -> reads_arg (ArgString n (APlaceholder id)) (ArgString n (ABlock b)) u
  | rd_number_block n id b u : reads_block id b u -> reads_arg (ArgNumber n (APlaceholder id)) (ArgNumber n (ABlock b)) u
  (** a boolean argument that refers to a block "true" or "false" is that literal *)
  | rd_true n id b u : reads_block id b u -> ab_op_code b = lit "true" ->
      reads_arg (ArgBoolean n (APlaceholder id)) (ArgBoolean n (AValue true)) u
  | rd_false n id b u : reads_block id b u -> ab_op_code b = lit "false" ->
      reads_arg (ArgBoolean n (APlaceholder id)) (ArgBoolean n (AValue false)) u
  | rd_boolean_block n id b u : reads_block id b u -> ab_op_code b <> lit "true" -> ab_op_code b <> lit "false" ->
      reads_arg (ArgBoolean n (APlaceholder id)) (ArgBoolean n (ABlock b)) u.
End Reading.
(** the blocks that a container stands for, and the raw blocks used *)
Definition reads_container (c : list block) (t : blocks) (u : list N) : Prop :=
  Forall (fun b => parse_u32 (bl_id b) <> None) c /\
  ((c = [] /\ t = [] /\ u = []) \/ exists id, start c id /\ reads_stack (graph c) id t u).

(** ** Writing a container *)
(** no block to be filled in is left anywhere *)
Section Everywhere.
  Context (P : ablock -> Prop).
  Definition value_all {T} (v : arg_value ablock T) : Prop := match v with ABlock b => P b | _ => True end.
  Definition item_all (i : spec_item ablock) : Prop :=
    match i with
    | SText _ => True
    | SParam (ArgString _ v) => value_all v
    | SParam (ArgNumber _ v) => value_all v
    | SParam (ArgBoolean _ v) => value_all v
    | SParam (ArgMenu _ v) => value_all v
    end.
  Fixpoint items_all (l : list (spec_item ablock)) : Prop := match l with [] => True | i :: r => item_all i /\ items_all r end.
  Fixpoint stack_all (l : list ablock) : Prop := match l with [] => True | b :: r => P b /\ stack_all r end.
  Definition sub_all (s : option (list ablock)) : Prop := match s with Some l => stack_all l | None => True end.
End Everywhere.
Definition hole {T} (v : arg_value ablock T) : Prop := match v with APlaceholder _ => True | _ => False end.
Definition has_hole (i : spec_item ablock) : Prop :=
  match i with
  | SText _ => False
  | SParam (ArgString _ v) => hole v
  | SParam (ArgNumber _ v) => hole v
  | SParam (ArgBoolean _ v) => hole v
  | SParam (ArgMenu _ v) => hole v
  end.
Fixpoint no_holes (b : ablock) : Prop :=
  match b with
  | MkBlock s1 s2 _ _ items _ =>
    Forall (fun i => ~ has_hole i) items /\ items_all no_holes items /\ sub_all no_holes s1 /\ sub_all no_holes s2
  end.
(** the number of blocks of a tree; a boolean literal counts as one *)
Section Sizes.
  Context (f : ablock -> nat).
  Definition value_size {T} (v : arg_value ablock T) : nat := match v with ABlock b => f b | _ => 0 end.
  Definition item_size (i : spec_item ablock) : nat :=
    match i with
    | SText _ => 0
    | SParam (ArgString _ v) => value_size v
    | SParam (ArgNumber _ v) => value_size v
    | SParam (ArgBoolean _ (AValue _)) => 1
    | SParam (ArgBoolean _ v) => value_size v
    | SParam (ArgMenu _ v) => value_size v
    end.
  Fixpoint items_size (l : list (spec_item ablock)) : nat := match l with [] => 0 | i :: r => item_size i + items_size r end.
  Fixpoint stack_size (l : list ablock) : nat := match l with [] => 0 | b :: r => f b + stack_size r end.
  Definition sub_size (s : option (list ablock)) : nat := match s with Some l => stack_size l | None => 0 end.
End Sizes.
Fixpoint block_size (b : ablock) : nat :=
  match b with
  | MkBlock s1 s2 _ _ items _ => S (items_size block_size items + sub_size block_size s1 + sub_size block_size s2)
  end.
Definition blocks_size : blocks -> nat := stack_size block_size.
(** the same without the boolean literals *)
Section Counts.
  Context (f : ablock -> nat).
  Definition item_count (i : spec_item ablock) : nat :=
    match i with SParam (ArgBoolean _ (AValue _)) => 0 | _ => item_size f i end.
  Fixpoint items_count (l : list (spec_item ablock)) : nat := match l with [] => 0 | i :: r => item_count i + items_count r end.
End Counts.
Fixpoint block_count (b : ablock) : nat :=
  match b with
  | MkBlock s1 s2 _ _ items _ => S (items_count block_count items + sub_size block_count s1 + sub_size block_count s2)
  end.
Definition blocks_count : blocks -> nat := stack_size block_count.
(** the chain of raw blocks found by following [next_block] from the id [z] until -1 *)
Inductive chain (c : list block) : Z -> list block -> Prop :=
| chain_end : chain c (-1) []
| chain_step z b r : In b c -> (0 <= z)%Z -> bl_id b = dec_of_N (Z.to_N z) -> chain c (bl_next_block b) r -> chain c z (b :: r).
(** the raw block that stands for a block *)
Definition raw_of (b : ablock) (pb : block) : Prop :=
  bl_color pb = ab_color b /\ bl_op_code pb = ab_op_code b /\ bl_spec pb = join 32 (map item_spec (ab_content b)) /\
  bl_type pb = block_type_to_string (ab_type b) /\ length (bl_parameters pb) = length (get_args (ab_content b)).
(** a parameter with a written value that is not taken for a reference; [canonical F64] holds of every f64 *)
Definition plain_value {B} (a : argument B) : Prop :=
  match a with
  | ArgString _ (AValue s) => forall r, s <> 64 :: r
  | ArgNumber _ (AValue x) => canonical F64 x = true
  | ArgMenu _ (AValue _) => True
  | _ => False
  end.
Definition not_list (t : block_type) : Prop := match t with TArgument (RList _) => False | _ => True end.
(** a block without sub stacks, with plain parameters only *)
Definition leaf (b : ablock) : Prop :=
  ab_sub_stack1 b = None /\ ab_sub_stack2 b = None /\ not_list (ab_type b) /\ ab_content b <> [] /\
  Forall (fun i => match i with SText t => text_ok t | SParam a => name_ok (arg_name a) /\ plain_value a end) (ab_content b).
(** what a conversion to raw blocks and back keeps *)
Definition kept_value (a : argument ablock) : Prop :=
  match a with
  | ArgBoolean _ (AValue _) => True
  | ArgString _ (ABlock b) => leaf b
  | ArgNumber _ (ABlock b) => leaf b
  | ArgBoolean _ (ABlock b) => leaf b /\ ab_op_code b <> lit "true" /\ ab_op_code b <> lit "false"
  | _ => plain_value a
  end.
Definition kept_stack (s : option (list ablock)) : Prop := s = None \/ exists b, s = Some [b] /\ leaf b.
Definition kept (b : ablock) : Prop :=
  kept_stack (ab_sub_stack1 b) /\ kept_stack (ab_sub_stack2 b) /\ not_list (ab_type b) /\ ab_content b <> [] /\
  Forall (fun i => match i with SText t => text_ok t | SParam a => name_ok (arg_name a) /\ kept_value a end) (ab_content b).

(** ** Remaining specifications *)
(** parameter words on which the spec parsers panic: a bare '%', '%m' without a name, '%c.x' with a char of three
    bytes or more (which [&s[3..]] cuts in two) *)
Definition bad_word (t : str) : Prop :=
  t = [37] \/ (exists r, t = 37 :: 109 :: r /\ forall n, n <> [] -> r <> 46 :: n) \/ (exists c r, t = 37 :: c :: 46 :: r /\ 0x800 <= c).
Definition count_params (ts : list str) : nat :=
  length (filter (fun t => match t with c :: _ => c =? 37 | [] => false end) ts).
(** the nine colours of the categories, as 24 bit numbers *)
Definition rgb24 (k : block_category) : N :=
  match k with
  | CatVariable => 0xee7d16 | CatList => 0xcc5b22 | CatControl => 0xe1a92a | CatOperator => 0x5cb722 | CatMath => 0x23b9a9
  | CatFile => 0xa1887f | CatViewFunc => 0x4a6cd4 | CatComponentFunc => 0xfca5e2 | CatMoreBlock => 0x8a55d7
  end.

(** ** Failing; an outcome [None] is a panic *)
(** the word [t] cannot be read with the arguments that are left *)
Inductive word_fails : str -> list str -> option content_error -> Prop :=
| wf_panic t args : bad_word t -> word_fails t args None
| wf_unknown c r args : ~ In c (lit "sbdm") -> ~ bad_word (37 :: c :: r) -> word_fails (37 :: c :: r) args (Some (CeUnknownSpecParam [c] (37 :: c :: r)))
| wf_no_argument t letter n : In letter ["s"; "b"; "d"; "m"]%string -> param_word t letter n -> ~ bad_word t -> word_fails t [] (Some CeRanOutOfArgs)
| wf_reference t letter n r args : In letter ["s"; "b"; "d"]%string -> param_word t letter n -> parse_u32 r = None ->
    word_fails t ((64 :: r) :: args) (Some (CeInvalidBlockId (64 :: r)))
| wf_boolean t n a args : param_word t "b" n -> (forall r, a <> 64 :: r) -> (forall b, ~ boolean_text a b) ->
    word_fails t (a :: args) (Some (CeInvalidBooleanArgument a))
| wf_number t n a args : param_word t "d" n -> (forall r, a <> 64 :: r) -> (forall x, ~ number_text a x) ->
    word_fails t (a :: args) (Some (CeInvalidNumberArgument a)).
(** the first word that cannot be read; the words before it have used their arguments up *)
Definition content_fails (ws args : list str) (o : option content_error) : Prop :=
  exists before t after used rest (is : list (spec_item ablock)), ws = before ++ t :: after /\ args = used ++ rest /\
    gives before used is /\ length used = count_params before /\ word_fails t rest o.
(** the same without arguments *)
Definition spec_fails (ws : list str) (o : option content_error) : Prop :=
  exists before t after, ws = before ++ t :: after /\
    Forall (fun w => is_param w -> exists letter n, In letter ["s"; "b"; "d"; "m"]%string /\ param_word w letter n /\ ~ bad_word w) before /\
    ((bad_word t /\ o = None) \/
     exists c r, t = 37 :: c :: r /\ ~ In c (lit "sbdm") /\ ~ bad_word t /\ o = Some (CeUnknownSpecParam [c] t)).

(** [v] are different blocks, none of them in [u] *)
Definition unused (u v : list N) : Prop := NoDup v /\ forall k, In k v -> ~ In k u.
Definition refers (a : argument ablock) (id : N) : Prop :=
  (exists n, a = ArgString n (APlaceholder id)) \/ (exists n, a = ArgNumber n (APlaceholder id)) \/ (exists n, a = ArgBoolean n (APlaceholder id)).
Section Failing.
  Context (G : N -> block -> Prop).
  (** [fails_block u id o]: the raw blocks [u] have been used; following the pointers from [id] fails *)
  Inductive fails_block : list N -> N -> option conv_error -> Prop :=
  | fl_missing u id : (forall pb, G id pb -> In id u) -> fails_block u id (Some (BlockNotFound id))
  | fl_sub1 u id pb o : G id pb -> unused u [id] -> (0 <= bl_sub_stack1 pb)%Z ->
      fails_stack (u ++ [id]) (Z.to_N (bl_sub_stack1 pb)) o ->
      fails_block u id (option_map (Substack1ParseError id (Z.to_N (bl_sub_stack1 pb))) o)
  | fl_sub2 u id pb s1 u1 o : G id pb -> reads_sub G (bl_sub_stack1 pb) s1 u1 -> unused u (id :: u1) -> (0 <= bl_sub_stack2 pb)%Z ->
      fails_stack (u ++ id :: u1) (Z.to_N (bl_sub_stack2 pb)) o ->
      fails_block u id (option_map (Substack2ParseError id (Z.to_N (bl_sub_stack2 pb))) o)
  | fl_content u id pb s1 u1 s2 u2 ws o : G id pb -> reads_sub G (bl_sub_stack1 pb) s1 u1 -> reads_sub G (bl_sub_stack2 pb) s2 u2 ->
      unused u (id :: u1 ++ u2) -> words (bl_spec pb) ws -> content_fails ws (bl_parameters pb) o ->
      fails_block u id (option_map BlockContentParseError o)
  | fl_items u id pb s1 u1 s2 u2 ws holes o : G id pb -> reads_sub G (bl_sub_stack1 pb) s1 u1 -> reads_sub G (bl_sub_stack2 pb) s2 u2 ->
      unused u (id :: u1 ++ u2) -> words (bl_spec pb) ws -> gives ws (bl_parameters pb) holes ->
      fails_items (u ++ id :: u1 ++ u2) holes o ->
      fails_block u id (option_map BlockContentParseError o)
  | fl_type u id pb s1 u1 s2 u2 ws holes items u3 : G id pb -> reads_sub G (bl_sub_stack1 pb) s1 u1 -> reads_sub G (bl_sub_stack2 pb) s2 u2 ->
      words (bl_spec pb) ws -> gives ws (bl_parameters pb) holes -> reads_items G holes items u3 ->
      unused u (id :: u1 ++ u2 ++ u3) -> (forall t, ~ type_text (bl_type pb) (bl_type_name pb) t) ->
      fails_block u id (Some (InvalidType {| ibt_type := bl_type pb; ibt_name := bl_type_name pb |}))
  with fails_stack : list N -> N -> option conv_error -> Prop :=
  | fl_first u id o : fails_block u id o -> fails_stack u id o
  | fl_next u id pb b v o : G id pb -> (0 <= bl_next_block pb)%Z -> reads_block G id b v -> unused u v ->
      fails_stack (u ++ v) (Z.to_N (bl_next_block pb)) o -> fails_stack u id o
  with fails_items : list N -> list (spec_item ablock) -> option content_error -> Prop :=
  | fl_text u t h o : fails_items u h o -> fails_items u (SText t :: h) o
  | fl_here u a h id o : refers a id -> fails_block u id o -> fails_items u (SParam a :: h) (option_map (fun _ => CeBlockNotFound id) o)
  | fl_later u a b v h o : reads_arg G a b v -> unused u v -> fails_items (u ++ v) h o -> fails_items u (SParam a :: h) o.
End Failing.
(** reading a container fails: at the first id that is not a number, or on the way from the start *)
Definition container_fails (c : list block) (o : option conv_error) : Prop :=
  (exists before b after, c = before ++ b :: after /\ Forall (fun b => parse_u32 (bl_id b) <> None) before /\ parse_u32 (bl_id b) = None /\
     o = Some (MalformedBlockId (bl_id b))) \/
  (Forall (fun b => parse_u32 (bl_id b) <> None) c /\ exists id, start c id /\ fails_stack (graph c) [] id o).
