(** Outcomes, strings and small list utilities shared by the whole model.

    Rust [str]/[String] is modelled as the list of its Unicode scalar values
    ([N]); everything in /repo that indexes strings by byte offset goes through
    [bdrop]/[btake]/[bslice] below, which return [None] exactly where Rust panics
    (offset out of range or not on a char boundary). *)
From Coq Require Export String Ascii.
From Coq Require Export List NArith ZArith Bool Lia.
Export ListNotations.
#[global] Open Scope list_scope.
#[global] Open Scope N_scope.

(** Outcome of a Rust call: a [Result], or a panic (unwinding). *)
Inductive res (E A : Type) : Type :=
| Ok (a : A)
| Err (e : E)
| Panic.
Arguments Ok {E A} _.
Arguments Err {E A} _.
Arguments Panic {E A}.

(** the [?] operator *)
Definition bind {E A B} (r : res E A) (f : A -> res E B) : res E B :=
  match r with Ok a => f a | Err e => Err e | Panic => Panic end.
(** [Result::map_err] *)
Definition map_err {E F A} (f : E -> F) (r : res E A) : res F A :=
  match r with Ok a => Ok a | Err e => Err (f e) | Panic => Panic end.
Definition rmap {E A B} (f : A -> B) (r : res E A) : res E B :=
  match r with Ok a => Ok (f a) | Err e => Err e | Panic => Panic end.
(** [Option::ok_or] *)
Definition ok_or {E A} (e : E) (o : option A) : res E A :=
  match o with Some a => Ok a | None => Err e end.
(** [Option::unwrap], and indexing that panics *)
Definition unwrap {E A} (o : option A) : res E A :=
  match o with Some a => Ok a | None => Panic end.
Definition is_ok {E A} (r : res E A) : bool :=
  match r with Ok _ => true | _ => false end.
Definition obind {A B} (o : option A) (f : A -> option B) : option B :=
  match o with Some a => f a | None => None end.

Notation "'let*' x ':=' e 'in' k" := (bind e (fun x => k))
  (at level 200, x pattern, e at level 100, k at level 200, right associativity).
Notation "'let?' x ':=' e 'in' k" := (obind e (fun x => k))
  (at level 200, x pattern, e at level 100, k at level 200, right associativity).

(** [iter.map(f).collect::<Result<Vec<_>, _>>()]: stops at the first error/panic. *)
Fixpoint mapM {E A B} (f : A -> res E B) (l : list A) : res E (list B) :=
  match l with
  | [] => Ok []
  | a :: r => let* b := f a in let* bs := mapM f r in Ok (b :: bs)
  end.
Fixpoint omapM {A B} (f : A -> option B) (l : list A) : option (list B) :=
  match l with
  | [] => Some []
  | a :: r => let? b := f a in let? bs := omapM f r in Some (b :: bs)
  end.

(** ** Strings *)
Notation char := N (only parsing).
Notation str := (list N) (only parsing).

(** A Coq (ASCII) literal as a Rust string literal. *)
Definition lit (s : string) : str := map N_of_ascii (list_ascii_of_string s).
Arguments lit _%string.

(** Unicode scalar values: what a Rust [char] can be. *)
Definition scalar (c : char) : bool :=
  (c <? 0xD800) || ((0xE000 <=? c) && (c <? 0x110000)).
Definition wf_str (s : str) : bool := forallb scalar s.

Fixpoint str_eqb (a b : str) : bool :=
  match a, b with
  | [], [] => true
  | x :: a', y :: b' => (x =? y) && str_eqb a' b'
  | _, _ => false
  end.

(** Number of UTF-8 bytes of a char, [char::len_utf8]. *)
Definition u8len (c : char) : nat :=
  if c <? 0x80 then 1%nat else if c <? 0x800 then 2%nat
  else if c <? 0x10000 then 3%nat else 4%nat.
(** [str::len] (in bytes) *)
Fixpoint blen (s : str) : nat :=
  match s with [] => 0%nat | c :: r => (u8len c + blen r)%nat end.

(** [&s[n..]] *)
Fixpoint bdrop (n : nat) (s : str) : option str :=
  match n with
  | O => Some s
  | _ => match s with
         | [] => None
         | c :: r => if (u8len c <=? n)%nat then bdrop (n - u8len c) r else None
         end
  end.
(** [&s[..n]] *)
Fixpoint btake (n : nat) (s : str) : option str :=
  match n with
  | O => Some []
  | _ => match s with
         | [] => None
         | c :: r => if (u8len c <=? n)%nat
                     then option_map (cons c) (btake (n - u8len c) r) else None
         end
  end.
(** [&s[a..b]] *)
Definition bslice (a b : nat) (s : str) : option str :=
  if (a <=? b)%nat then obind (bdrop a s) (btake (b - a)) else None.

(** [str::split(char)] *)
Fixpoint split_on (c : char) (s : str) : list str :=
  match s with
  | [] => [[]]
  | x :: r => if x =? c then [] :: split_on c r
              else match split_on c r with
                   | [] => [[x]]
                   | h :: t => (x :: h) :: t
                   end
  end.
(** [slice::join] with a one-char separator *)
Fixpoint join (c : char) (ls : list str) : str :=
  match ls with
  | [] => []
  | l :: r => match r with [] => l | _ => l ++ c :: join c r end
  end.

(** [str::strip_prefix] / [starts_with] / [ends_with] *)
Fixpoint strip_prefix (p s : str) : option str :=
  match p, s with
  | [], _ => Some s
  | x :: p', y :: s' => if x =? y then strip_prefix p' s' else None
  | _ :: _, [] => None
  end.
Definition starts_with (p s : str) : bool :=
  match strip_prefix p s with Some _ => true | None => false end.
Definition ends_with (p s : str) : bool := starts_with (rev p) (rev s).

(** [str::split_once(&str)]: leftmost match. [str::split(&str)] is its iteration. *)
Fixpoint split_once (p s : str) : option (str * str) :=
  match strip_prefix p s with
  | Some r => Some ([], r)
  | None => match s with
            | [] => None
            | x :: r => match split_once p r with
                        | Some (a, b) => Some (x :: a, b)
                        | None => None
                        end
            end
  end.
(** first item of [str::split(&str)] *)
Definition split_first (p s : str) : str :=
  match split_once p s with Some (a, _) => a | None => s end.

(** Unicode [White_Space], [char::is_whitespace] *)
Definition is_ws (c : char) : bool :=
  ((9 <=? c) && (c <=? 13)) || (c =? 32) || (c =? 0x85) || (c =? 0xA0) || (c =? 0x1680)
  || ((0x2000 <=? c) && (c <=? 0x200A)) || (c =? 0x2028) || (c =? 0x2029)
  || (c =? 0x202F) || (c =? 0x205F) || (c =? 0x3000).
Fixpoint trim_start (s : str) : str :=
  match s with
  | [] => []
  | c :: r => if is_ws c then trim_start r else s
  end.
Definition trim_end (s : str) : str := rev (trim_start (rev s)).
(** [str::trim] *)
Definition trim (s : str) : str := trim_end (trim_start s).

Definition NL : char := 10.
Definition AT : char := 64.

(** ** Insertion-ordered maps: [ritelinked::LinkedHashMap].
    Modelled as an association list in iteration order. [insert] of a present key
    replaces the value and moves the entry to the back, [remove] keeps the order of
    the others (documented behaviour of ritelinked/hashlink). *)
Section Lhm.
  Context {K V : Type} (keqb : K -> K -> bool).
  Fixpoint lget (k : K) (m : list (K * V)) : option V :=
    match m with
    | [] => None
    | (k', v) :: r => if keqb k k' then Some v else lget k r
    end.
  Fixpoint lremove (k : K) (m : list (K * V)) : list (K * V) :=
    match m with
    | [] => []
    | (k', v) :: r => if keqb k k' then lremove k r else (k', v) :: lremove k r
    end.
  Definition linsert (k : K) (v : V) (m : list (K * V)) : list (K * V) :=
    lremove k m ++ [(k, v)].
  Definition lmem (k : K) (m : list (K * V)) : bool :=
    match lget k m with Some _ => true | None => false end.
  (** [collect::<LinkedHashMap<_,_>>()]: successive [insert]s *)
  Definition lcollect (l : list (K * V)) : list (K * V) :=
    fold_left (fun m kv => linsert (fst kv) (snd kv) m) l [].
End Lhm.
Notation smap V := (list (str * V)).
Definition sget {V} := @lget str V str_eqb.
Definition sremove {V} := @lremove str V str_eqb.
Definition sinsert {V} := @linsert str V str_eqb.
Definition smem {V} := @lmem str V str_eqb.
Definition scollect {V} := @lcollect str V str_eqb.
