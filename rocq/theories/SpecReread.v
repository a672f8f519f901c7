(** What C107 asks of the names in a logic file that was read: the file has no way to write other ones. *)
From Verif Require Import Base M_Logic.

(** the last line of a pool keeps its end, the first one its beginning *)
Definition ends_plain {A} (part : A -> str) (o : option (smap A)) : Prop := forall r k x s c, o = Some (r ++ [(k, x)]) -> part x = s ++ [c] -> is_ws c = false.
Definition begins_plain {A} (o : option (smap A)) : Prop := forall k x r c n, o = Some ((k, x) :: r) -> k = c :: n -> is_ws c = false.
Definition screen_plain (x : screen_logic) : Prop :=
  (* the name of the screen is found again in a header *)
  (forall a b, sl_name x <> a ++ lit ".java_" ++ b) /\
  ends_plain va_name (sl_variables x) /\ ends_plain lv_name (sl_list_variables x) /\ ends_plain mb_spec (sl_more_blocks x) /\ begins_plain (sl_more_blocks x) /\
  (* the header of a container is not that of a pool *)
  Forall (fun kv => forall s a, In s [lit "java_var"; lit "java_list"; lit "java_components"; lit "java_events"; lit "java_func"] -> lit "java_" ++ fst kv <> a ++ s) (sl_block_containers x) /\
  (forall r c a w, sl_block_containers x = r ++ [(c, [])] -> c = a ++ [w] -> is_ws w = false).
