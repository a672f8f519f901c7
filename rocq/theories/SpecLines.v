(** What the lines of a data file mean: small declarative specifications for the readers of the [file],
    [resource], [library], [view] and [logic] data files. They do not use the model's loops. *)
From Coq Require Import Sorted.
From Verif Require Import Base Spec.

(** ** Files of sections with header lines from a fixed list ([file], [resource]) *)
Section Sections.
  Variable headers : list str.
  Variable lines : list str.
  (** the last header before line [i] is [h] *)
  Definition governs (i : nat) (h : str) : Prop :=
    exists j, (j < i)%nat /\ nth_error lines j = Some h /\ In h headers /\
      forall k l, (j < k < i)%nat -> nth_error lines k = Some l -> ~ In l headers.
  (** line [i] is the item line [l] of a section with header [h] *)
  Definition item_line (i : nat) (h l : str) : Prop :=
    nth_error lines i = Some l /\ ~ In l headers /\ governs i h.
  (** there is no blank item line before line [i] (the first one ends the reading) *)
  Definition reached (i : nat) : Prop := forall j h, (j < i)%nat -> ~ item_line j h [].
  (** line [i] is an item line that is looked at *)
  Definition read_line (i : nat) (h l : str) : Prop := item_line i h l /\ l <> [] /\ reached i.
  (** [xs] are the items of the sections with header [h], in the order of their lines *)
  Definition section_items {A} (parse : str -> option A) (h : str) (xs : list A) : Prop :=
    exists is, StronglySorted lt is /\ (forall i, In i is <-> exists l, read_line i h l) /\
      Forall2 (fun i x => exists l, nth_error lines i = Some l /\ parse l = Some x) is xs.
  (** [l], line [i], is the first item line looked at that is not an item *)
  Definition first_bad {A} (parse : str -> option A) (i : nat) (h l : str) : Prop :=
    read_line i h l /\ parse l = None /\ forall j h' l', (j < i)%nat -> read_line j h' l' -> parse l' <> None.
End Sections.

(** ** Maps filled in the order of the lines: of the entries with the same key the last one stays, at its place *)
Fixpoint keep_last {A} (l : list (str * A)) : list (str * A) :=
  match l with
  | [] => []
  | (k, x) :: r => if existsb (fun y => str_eqb k (fst y)) r then keep_last r else (k, x) :: keep_last r
  end.

(** [tail] are the lines from the end of a section on: nothing, or a blank line and then [rest] *)
Definition ends_section (tail rest : list str) : Prop := (tail = [] /\ rest = []) \/ tail = [] :: rest.

(** ** [library]: a header and the line after it *)
Inductive library_picks (headers : list str) : list str -> list (str * str) -> list str -> Prop :=
| lp_none rest : library_picks headers rest [] rest
| lp_other l r ps rest : ~ In l headers -> library_picks headers r ps rest -> library_picks headers (l :: r) ps rest
| lp_item h i r ps rest : In h headers -> library_picks headers r ps rest ->
    library_picks headers (h :: i :: r) ((h, i) :: ps) rest.

(** ** [view]: layouts up to a blank line, floating buttons on one line, unknown headers skipped *)
Inductive view_entry := VELayout (name : str) (body : list str) | VEFab (name line : str).
Inductive view_entries : list str -> list view_entry -> list str -> Prop :=
| ve_none rest : view_entries rest [] rest
| ve_layout n body tail r es rest : ~ In 46 n -> ~ In [] body -> ends_section tail r -> view_entries r es rest ->
    view_entries ((64 :: n ++ lit ".xml") :: body ++ tail) (VELayout n body :: es) rest
| ve_fab n l r es rest : ~ In 46 n -> view_entries r es rest ->
    view_entries ((64 :: n ++ lit ".xml_fab") :: l :: r) (VEFab n l :: es) rest
| ve_other n k r es rest : ~ In 46 n -> k <> lit "xml" -> k <> lit "xml_fab" -> view_entries r es rest ->
    view_entries ((64 :: n ++ 46 :: k) :: r) es rest.
Fixpoint layouts_of (es : list view_entry) : list (str * list str) :=
  match es with [] => [] | VELayout n body :: r => (n, body) :: layouts_of r | VEFab _ _ :: r => layouts_of r end.
Fixpoint fabs_of (es : list view_entry) : list (str * str) :=
  match es with [] => [] | VELayout _ _ :: r => fabs_of r | VEFab n l :: r => (n, l) :: fabs_of r end.
(** reading stops at the end and at the first line where a header should be but is not *)
Definition no_header (rest : list str) : Prop := forall l r, rest = l :: r -> forall t, l <> 64 :: t.

(** ** [logic]: sections of a header and the lines up to a blank one *)
Inductive logic_sections_of : list str -> list (str * list str) -> list str -> Prop :=
| ls_none rest : logic_sections_of rest [] rest
| ls_section h body tail r ss rest : ~ In [] body -> ends_section tail r -> logic_sections_of r ss rest ->
    logic_sections_of ((64 :: h) :: body ++ tail) ((64 :: h, body) :: ss) rest.
(** what a header names. A pool header is '@', the screen name, one ASCII character (a dot) and the kind. *)
Inductive section_kind := KVariables | KLists | KComponents | KEvents | KMoreBlocks | KBlocks (container : str).
Definition pool_suffixes : list (section_kind * str) :=
  [(KVariables, lit "java_var"); (KLists, lit "java_list"); (KComponents, lit "java_components");
   (KEvents, lit "java_events"); (KMoreBlocks, lit "java_func")].
Definition contains (p s : str) : Prop := exists a b, s = a ++ p ++ b.
Inductive header_names : str -> str -> section_kind -> Prop :=
| hn_pool k suf n c : In (k, suf) pool_suffixes -> c < 128 -> header_names (64 :: n ++ c :: suf) n k
| hn_blocks h n rest c : h = 64 :: n ++ lit ".java_" ++ rest ->
    (forall k suf a, In (k, suf) pool_suffixes -> h <> a ++ suf) ->
    ~ contains (lit ".java_") n -> ~ contains (lit ".java_") c -> (rest = c \/ exists d, rest = c ++ lit ".java_" ++ d) ->
    header_names h n (KBlocks c).

(** the elements of [l] that [R] gives a meaning, with their meanings, in order *)
Inductive selects {A B} (R : A -> B -> Prop) : list A -> list B -> Prop :=
| sel_nil : selects R [] []
| sel_take a b l m : R a b -> selects R l m -> selects R (a :: l) (b :: m)
| sel_skip a l m : (forall b, ~ R a b) -> selects R l m -> selects R (a :: l) m.
Definition last_of {A} (l : list A) : option A := last (map Some l) None.
Definition str_dec : forall a b : str, {a = b} + {a <> b} := list_eq_dec N.eq_dec.
(** the different names, each at the place of its last (first) occurrence *)
Definition by_last (ns : list str) : list str := nodup str_dec ns.
Definition by_first (ns : list str) : list str := rev (nodup str_dec (rev ns)).
