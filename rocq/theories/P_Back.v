(** What becomes of block trees that are written as raw blocks and read again: property C94. *)
From Verif Require Import Base Str Dec Flt Spec SpecBlock M_Color M_Logic A_Block BlockContentProofs BlockWriteProofs BlockTripProofs P_Block BlockProofs BackProofs SpecBack.

(** ** C94: what comes back *)
(** for blocks with plain names and strings: reading succeeds exactly if numbers and booleans are given and no type is that of a list;
    then every block comes back with, in the place of each argument and sub stack, the one block written last in it *)
Theorem C94_back l c : blocks_into l = Ok c -> 9 + N.of_nat (length c) < 2 ^ 31 -> Forall (fun b => Forall block_plain (read_again b)) l ->
  forall l', blocks_try_from c = Ok l' <-> Forall (fun b => Forall block_given (read_again b)) l /\ l' = map block_back l.
Proof. apply back_iff. Qed.
Print Assumptions C94_back.
(** otherwise reading fails with an error, not with a panic *)
Theorem C94_no_panic l c : blocks_into l = Ok c -> 9 + N.of_nat (length c) < 2 ^ 31 -> Forall (fun b => Forall block_plain (read_again b)) l ->
  blocks_try_from c <> Panic.
Proof. apply back_safe. Qed.
Print Assumptions C94_no_panic.
(** what has come back once comes back unchanged: it is [kept], see C31 *)
Theorem C94_settled l c l' : blocks_into l = Ok c -> 9 + N.of_nat (length c) < 2 ^ 31 -> Forall (fun b => Forall block_plain (read_again b)) l ->
  blocks_try_from c = Ok l' -> Forall kept l' /\ map block_back l' = l'.
Proof.
  intros H L P X. apply (back_iff _ _ H L P) in X as [K ->].
  assert (Nh : Forall no_holes l).
  { pose proof (into_stack _ _ H) as Hs. apply stack_holes in Hs; [|apply stack_all_intro, all_holes]. clear - Hs. induction l; constructor; apply Hs || apply IHl, Hs. }
  assert (F : Forall kept (map block_back l)).
  { apply Forall_forall. intros x I. apply in_map_iff in I as (b & <- & I). rewrite Forall_forall in P, K, Nh. apply back_kept; auto. }
  split; [exact F|]. clear - F. induction l as [|b l IH]; [reflexivity|]. cbn [map] in *. inversion F; subst. rewrite kept_block_back, IH; auto.
Qed.
Print Assumptions C94_settled.

(** "if p(q(1)) then [a; b]" loses p and a; an empty string comes back as the string of no chars *)
Definition back_leaf (op : string) (ty : block_type) : ablock := MkBlock None None green (lit op) [SText (lit op)] ty.
Definition back_with (op : string) (a : argument ablock) (ty : block_type) : ablock := MkBlock None None green (lit op) [SText (lit op); SParam a] ty.
Definition back_if (cond : ablock) (e : arg_value ablock str) (sub : list ablock) : ablock :=
  MkBlock (Some sub) None green (lit "if") [SText (lit "if"); SParam (ArgBoolean None (ABlock cond)); SParam (ArgString (Some (lit "note")) e)] (TControl OneNest).
Definition ex_back : blocks :=
  [back_if (back_with "p" (ArgBoolean None (ABlock (back_leaf "q" (TArgument RBoolean)))) (TArgument RBoolean)) AEmpty [back_leaf "a" TRegular; back_leaf "b" TRegular];
   back_with "not" (ArgBoolean None (AValue true)) TRegular].
Definition ex_back_again : blocks :=
  [back_if (back_leaf "q" (TArgument RBoolean)) (AValue []) [back_leaf "b" TRegular];
   back_with "not" (ArgBoolean None (AValue true)) TRegular].
Example C94_example :
  (exists c, blocks_into ex_back = Ok c /\ length c = 7%nat /\ blocks_try_from c = Ok ex_back_again) /\
  map block_back ex_back = ex_back_again /\ map block_back ex_back_again = ex_back_again /\
  Forall (fun b => Forall block_plain (read_again b)) ex_back /\ Forall (fun b => Forall block_given (read_again b)) ex_back.
Proof.
  assert (T : forall t, existsb (N.eqb 32) t = false -> match t with c :: _ => c =? 37 | [] => false end = false -> text_ok t).
  { intros t H1 H2. split; [intros I; apply existsb_eqb in I; congruence|]. intros [r ->]. discriminate. }
  split; [eexists; split; [vm_compute; reflexivity|split; vm_compute; reflexivity]|]. split; [vm_compute; reflexivity|]. split; [vm_compute; reflexivity|]. split.
  - repeat constructor; try (apply T; vm_compute; reflexivity); cbn; auto; try discriminate; intuition discriminate.
  - repeat constructor.
Qed.
(** the other side: an empty number does not come back, and the type of a list does not *)
Example C94_error_example :
  let n := MkBlock None None green (lit "n") [SParam (ArgNumber None AEmpty)] TRegular in
  let t := MkBlock None None green (lit "t") [SText (lit "t")] (TArgument (RList LiString)) in
  (exists c, blocks_into [n] = Ok c /\ blocks_try_from c = Err (BlockContentParseError (CeInvalidNumberArgument []))) /\
  (exists c, blocks_into [t] = Ok c /\ blocks_try_from c = Err (InvalidType {| ibt_type := lit "l"; ibt_name := [] |})) /\ ~ block_given n /\ ~ block_given t.
Proof.
  cbv zeta. split; [eexists; split; [vm_compute; reflexivity|vm_compute; reflexivity]|]. split; [eexists; split; [vm_compute; reflexivity|vm_compute; reflexivity]|]. split; [intros [_ K]; apply Forall_inv in K; exact K|intros [K _]; exact K].
Qed.
