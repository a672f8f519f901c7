(** C102: what a function that reads one section off an iterator of lines does, whatever lines there are. *)
From Verif Require Import Base M_View M_Logic SpecReading.
Local Open Scope N_scope.

(** [body] are the lines before the first empty one, [rest] those after it *)
Definition one_section (lines body rest : list str) : Prop :=
  ~ In [] body /\ (lines = body ++ [] :: rest \/ (lines = body /\ rest = [])).
(** [bad] is the first line of the section that [p] cannot read; [rest] are the lines after it *)
Definition stops_at {A} (p : str -> option A) (lines good : list str) (bad : str) (rest : list str) : Prop :=
  lines = good ++ bad :: rest /\ ~ In [] (good ++ [bad]) /\ Forall (fun l => p l <> None) good /\ p bad = None.
Definition okay {E A} (p : str -> res E A) (l : str) : option A := match p l with Ok x => Some x | _ => None end.
(** the outcome of [f] and what it leaves: either the section was read as [R] says, up to and with the empty line, or the
    first bad line is reported by its number and content and nothing after it has been taken *)
Definition reads_section {E A M} (p : str -> res E A) (R : list str -> M -> Prop) (f : list str -> res (pool_error E) M * list str) : Prop :=
  forall lines rest,
    (forall m, f lines = (Ok m, rest) <-> exists body, one_section lines body rest /\ R body m) /\
    (forall e, f lines = (Err e, rest) <->
       exists good bad err, stops_at (okay p) lines good bad rest /\ p bad = Err err /\ e = pool_err good bad err) /\
    f lines <> (Panic, rest).
