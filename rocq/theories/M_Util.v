(** Model of /repo/src/util.rs: the iterator that counts every call of [next]. *)
From Verif Require Import Base Spec.

Section Counting.
  (** an iterator: its state and one step (the answer and the new state) *)
  Context {S A : Type} (step : S -> option A * S).
  (** util.rs L4-7 *)
  Record counting := { ci_iter : S; ci_count : N }.
  (** util.rs L11-16, L18 *)
  Definition counting_new (s : S) : counting := {| ci_iter := s; ci_count := 0 |}.
  Definition get_count (c : counting) : N := ci_count c.
  (** util.rs L26-29; [self.count += 1] on a u32 panics when overflow checks are on and wraps otherwise *)
  Definition counting_next (checks : bool) (c : counting) : res unit (option A * counting) :=
    if checks && (ci_count c =? 4294967295) then Panic
    else let (a, s) := step (ci_iter c) in Ok (a, {| ci_iter := s; ci_count := (ci_count c + 1) mod 4294967296 |}).
  (** [n] calls of [next]: the answers and the iterator afterwards *)
  Fixpoint nexts (checks : bool) (n : nat) (c : counting) : res unit (list (option A) * counting) :=
    match n with
    | O => Ok ([], c)
    | Datatypes.S n' => let* (a, c1) := counting_next checks c in
                        let* (l, c2) := nexts checks n' c1 in Ok (a :: l, c2)
    end.
  (** the same calls on the bare iterator *)
  Fixpoint steps (n : nat) (s : S) : list (option A) * S :=
    match n with
    | O => ([], s)
    | Datatypes.S n' => let (a, s1) := step s in let (l, s2) := steps n' s1 in (a :: l, s2)
    end.
End Counting.
Arguments counting S : clear implicits.
(** a vector's iterator *)
Definition list_step {A} (l : list A) : option A * list A := match l with [] => (None, []) | a :: r => (Some a, r) end.
