(** [parse_iter] on an iterator that the caller goes on using: what is left in the iterator, also after an error.
    M_Logic.v and M_View.v only have the lines left after success, because their callers stop at an error. *)
From Verif Require Import Base M_View M_Logic.
Local Open Scope N_scope.

(** [for (count, line) in newline_iter.by_ref().take_while(|i| *i != "").enumerate()] with [?] in the body
    (logic.rs L365-374, L517-532, L633-645, L773-787, L898-911, L1034-1041): the second component is the lines the iterator
    still has. [ComponentPool::parse_iter] takes the iterator by value; called with [&mut] of one, as in logic.rs, it is
    the same. The line with the error has been taken from the iterator. *)
Fixpoint pool_iter {E A M} (p : str -> res E A) (ins : A -> M -> M) (lines : list str) (count : N) (acc : M)
  : res (pool_error E) M * list str :=
  match lines with
  | [] => (Ok acc, [])
  | l :: r =>
    match l with
    | [] => (Ok acc, r)
    | _ =>
      match p l with
      | Ok a => pool_iter p ins r (count + 1) (ins a acc)
      | Err e => (Err {| pe_count := count; pe_content := l; pe_source := e |}, r)
      | Panic => (Panic, r)
      end
    end
  end.
(** logic.rs L359-377 *)
Definition variable_pool_iter (lines : list str) : res (pool_error variable_error) variable_pool * list str :=
  pool_iter variable_parse ins_variable lines 0 [].
(** logic.rs L511-535 *)
Definition list_variable_pool_iter (lines : list str) : res (pool_error list_variable_error) list_variable_pool * list str :=
  pool_iter list_variable_parse ins_list_variable lines 0 [].
(** logic.rs L628-649 *)
Definition component_pool_iter (lines : list str) : res (pool_error unit) (list component) * list str :=
  pool_iter component_parse vpush lines 0 [].
(** logic.rs L767-798: collect, then insert one by one *)
Definition more_block_pool_iter (lines : list str) : res (pool_error more_block_error) more_block_pool * list str :=
  let (r, rest) := pool_iter more_block_parse vpush lines 0 [] in
  (rmap (fun v => fold_left (fun m b => sinsert (mb_id b) b m) v []) r, rest).
(** logic.rs L891-914 *)
Definition event_pool_iter (lines : list str) : res (pool_error unit) (list event) * list str :=
  pool_iter event_parse vpush lines 0 [].
(** view.rs L174-196 *)
Fixpoint layout_iter (lines : list str) (acc : layout) (count : N) : res layout_parse_error layout * list str :=
  match lines with
  | [] => (Ok acc, [])
  | l :: r =>
    match l with
    | [] => (Ok acc, r)
    | _ =>
      match view_line_parse l with
      | Some v => layout_iter r (acc ++ [v]) (count + 1)
      | None => (Err {| lpe_view_before := last (map Some acc) None; lpe_content := l; lpe_line := count |}, r)
      end
    end
  end.
