(** Small specifications about filling in the arguments of a block content, used in the statements of P_Fill.v. *)
From Verif Require Import Base Dec Flt A_Block SpecNumber SpecBlock.

(** ** Texts for the arguments without a value *)
(** the argument that an argument without a value becomes when it is given the text [t] *)
Inductive filled_by : argument ablock -> str -> argument ablock -> Prop :=
| filled_string n t v : reads_as eq t v -> filled_by (ArgString n AEmpty) t (ArgString n v)
| filled_number n t v : reads_as number_text t v -> filled_by (ArgNumber n AEmpty) t (ArgNumber n v)
| filled_boolean n t v : reads_as boolean_text t v -> filled_by (ArgBoolean n AEmpty) t (ArgBoolean n v)
| filled_menu n t v : reads_as eq t v -> filled_by (ArgMenu n AEmpty) t (ArgMenu n v).
(** the items after the texts have been given out, in order, one for each argument without a value *)
Inductive fills : list (spec_item ablock) -> list str -> list (spec_item ablock) -> Prop :=
| fills_nil : fills [] [] []
| fills_text s is ts js : fills is ts js -> fills (SText s :: is) ts (SText s :: js)
| fills_kept a is ts js : ~ is_empty a -> fills is ts js -> fills (SParam a :: is) ts (SParam a :: js)
| fills_open a t b is ts js : filled_by a t b -> fills is ts js -> fills (SParam a :: is) (t :: ts) (SParam b :: js).
(** an argument without a value that cannot be filled with the texts that are left *)
Inductive unfit : argument ablock -> list str -> content_error -> Prop :=
| unfit_none a : is_empty a -> unfit a [] CeRanOutOfArgs
| unfit_reference a r ts : is_empty a -> parse_u32 r = None -> unfit a ((64 :: r) :: ts) (CeInvalidBlockId (64 :: r))
| unfit_boolean n t ts : (forall r, t <> 64 :: r) -> (forall b, ~ boolean_text t b) -> unfit (ArgBoolean n AEmpty) (t :: ts) (CeInvalidBooleanArgument t)
| unfit_number n t ts : (forall r, t <> 64 :: r) -> (forall x, ~ number_text t x) -> unfit (ArgNumber n AEmpty) (t :: ts) (CeInvalidNumberArgument t).
(** the first such argument *)
Definition fill_fails (is : list (spec_item ablock)) (ts : list str) (e : content_error) : Prop :=
  exists before a after used rest js, is = before ++ SParam a :: after /\ ts = used ++ rest /\ fills before used js /\ unfit a rest e.

(** ** Blocks for the placeholders *)
(** the argument is a placeholder for the block [id] *)
Inductive asks : argument ablock -> N -> Prop :=
| asks_string n id : asks (ArgString n (APlaceholder id)) id
| asks_number n id : asks (ArgNumber n (APlaceholder id)) id
| asks_boolean n id : asks (ArgBoolean n (APlaceholder id)) id
| asks_menu n id : asks (ArgMenu n (APlaceholder id)) id.
(** a boolean argument holds a value in place of the blocks "true" and "false" *)
Inductive boolean_of : ablock -> arg_value ablock bool -> Prop :=
| boolean_true b : ab_op_code b = lit "true" -> boolean_of b (AValue true)
| boolean_false b : ab_op_code b = lit "false" -> boolean_of b (AValue false)
| boolean_block b : ab_op_code b <> lit "true" -> ab_op_code b <> lit "false" -> boolean_of b (ABlock b).
Inductive holds : argument ablock -> ablock -> argument ablock -> Prop :=
| holds_string n id b : holds (ArgString n (APlaceholder id)) b (ArgString n (ABlock b))
| holds_number n id b : holds (ArgNumber n (APlaceholder id)) b (ArgNumber n (ABlock b))
| holds_boolean n id b v : boolean_of b v -> holds (ArgBoolean n (APlaceholder id)) b (ArgBoolean n v)
| holds_menu n id b : holds (ArgMenu n (APlaceholder id)) b (ArgMenu n (ABlock b)).
Section Placing.
  (** the function asked for blocks: it may refuse, and what it answers may depend on what it was asked before *)
  Context {S : Type} (answers : N -> S -> option (ablock * S)).
  Inductive places : list (spec_item ablock) -> S -> list (spec_item ablock) -> S -> Prop :=
  | places_nil s : places [] s [] s
  | places_text t is s js s' : places is s js s' -> places (SText t :: is) s (SText t :: js) s'
  | places_kept a is s js s' : (forall id, ~ asks a id) -> places is s js s' -> places (SParam a :: is) s (SParam a :: js) s'
  | places_block a id b a' is s s1 js s' : asks a id -> answers id s = Some (b, s1) -> holds a b a' -> places is s1 js s' ->
      places (SParam a :: is) s (SParam a' :: js) s'.
  (** the first placeholder whose block is refused *)
  Definition place_fails (is : list (spec_item ablock)) (s : S) (id : N) : Prop :=
    exists before a after js s', is = before ++ SParam a :: after /\ places before s js s' /\ asks a id /\ answers id s' = None.
  (** the function as [apply_blocks] calls it *)
  Definition asked (id : N) (s : S) : out unit (ablock * S) := Some (match answers id s with Some x => Ok x | None => Err tt end).
End Placing.
