(** Properties C69 (gravity), C70 (arguments of a block content) and C71 (counting iterator). *)
From Coq Require Import Lia.
From Verif Require Import Base Str Spec Dec Flt M_Color M_View M_Util A_Block.
Local Open Scope N_scope.

(** C69. A test of [Gravity] looks at the bits of its constant. *)
Lemma land_subset m g : N.land g m = m <-> forall i, N.testbit m i = true -> N.testbit g i = true.
Proof.
  split.
  - intros H i Hi. rewrite <- H, N.land_spec in Hi. apply andb_prop in Hi. tauto.
  - intros H. apply N.bits_inj. intros i. rewrite N.land_spec. specialize (H i). destruct (N.testbit m i).
    + now rewrite H.
    + now rewrite Bool.andb_false_r.
Qed.
Lemma has_subset m g : gravity_has m g = true <-> forall i, N.testbit m i = true -> N.testbit g i = true.
Proof. unfold gravity_has. rewrite N.eqb_eq. apply land_subset. Qed.
Definition center_horizontal := gravity_has G_CENTER_HORIZONTAL.
Definition left := gravity_has G_LEFT.
Definition right := gravity_has G_RIGHT.
Definition center_vertical := gravity_has G_CENTER_VERTICAL.
Definition center := gravity_has G_CENTER.
Definition top := gravity_has G_TOP.
Definition bottom := gravity_has G_BOTTOM.
Lemma bits_of (m : N) (l : list N) g : (forall i, N.testbit m i = true <-> In i l) ->
  gravity_has m g = forallb (N.testbit g) l.
Proof.
  intros H. apply Bool.eq_true_iff_eq. rewrite has_subset, forallb_forall. split; intros K i Hi; apply K; apply H; auto.
Qed.
Ltac bits := let i := fresh in intros i; split;
  [ intros Hb; destruct (N.lt_ge_cases i 8) as [Hi|Hi];
    [ assert (Hc : i = 0 \/ i = 1 \/ i = 2 \/ i = 3 \/ i = 4 \/ i = 5 \/ i = 6 \/ i = 7) by lia;
      destruct Hc as [->|[->|[->|[->|[->|[->|[->| ->]]]]]]]; cbn in Hb |- *; try discriminate; tauto
    | rewrite N.bits_above_log2 in Hb; [discriminate | eapply N.lt_le_trans; [|exact Hi]; reflexivity] ]
  | cbn; intuition subst; reflexivity ].
Theorem C69_bits g :
  center_horizontal g = N.testbit g 0 /\
  left g = N.testbit g 0 && N.testbit g 1 /\
  right g = N.testbit g 0 && N.testbit g 2 /\
  center_vertical g = N.testbit g 4 /\
  center g = N.testbit g 0 && N.testbit g 4 /\
  top g = N.testbit g 4 && N.testbit g 5 /\
  bottom g = N.testbit g 4 && N.testbit g 6.
Proof.
  unfold center_horizontal, left, right, center_vertical, center, top, bottom.
  rewrite (bits_of G_CENTER_HORIZONTAL [0]), (bits_of G_LEFT [0; 1]), (bits_of G_RIGHT [0; 2]), (bits_of G_CENTER_VERTICAL [4]),
    (bits_of G_CENTER [0; 4]), (bits_of G_TOP [4; 5]), (bits_of G_BOTTOM [4; 6]) by bits.
  cbn [forallb]. rewrite !Bool.andb_true_r. repeat split.
Qed.
Print Assumptions C69_bits.
Theorem C69_implied g :
  center g = center_horizontal g && center_vertical g /\
  (left g = true -> center_horizontal g = true) /\ (right g = true -> center_horizontal g = true) /\
  (top g = true -> center_vertical g = true) /\ (bottom g = true -> center_vertical g = true).
Proof.
  destruct (C69_bits g) as (-> & -> & -> & -> & -> & -> & ->).
  repeat split; intros H; apply andb_prop in H; tauto.
Qed.
Print Assumptions C69_implied.
(** a gravity put together with [|] has the flags it was made of, and [NONE] has none *)
Theorem C69_combined m a : gravity_has m (N.lor m a) = true /\
  (forall m', gravity_has m' a = true -> gravity_has m' (N.lor m a) = true).
Proof.
  split; [|intros m']; rewrite ?has_subset; intros; rewrite N.lor_spec; apply Bool.orb_true_iff; auto.
Qed.
Print Assumptions C69_combined.
Theorem C69_none : Forall (fun f => f G_NONE = false) [center_horizontal; left; right; center_vertical; center; top; bottom].
Proof. repeat constructor. Qed.
Print Assumptions C69_none.
Example C69_example : let g := N.lor G_LEFT G_CENTER_VERTICAL in
  map (fun f => f g) [center_horizontal; left; right; center_vertical; center; top; bottom] = [true; true; false; true; true; false; false] /\
  map (fun f => f 85) [center_horizontal; left; right; center_vertical; center; top; bottom] = [true; false; true; true; true; false; true].
Proof. vm_compute. auto. Qed.

(** C70. Contents made with the builder, by the calls in order *)
Inductive call (B : Type) := CallText (s : str) | CallArg (a : argument B).
Arguments CallText {B} _.
Arguments CallArg {B} _.
Definition build {B} (calls : list (call B)) : list (spec_item B) :=
  builder_build (fold_left (fun b c => match c with CallText s => builder_text b s | CallArg a => builder_arg b a end) calls builder_new).
Definition item_of {B} (c : call B) : spec_item B := match c with CallText s => SText s | CallArg a => SParam a end.
Definition args_of {B} (calls : list (call B)) : list (argument B) := flat_map (fun c => match c with CallArg a => [a] | _ => [] end) calls.
(** what is left of an argument without its value *)
Inductive hole := HString (name : option str) | HNumber (name : option str) | HBoolean (name : option str) | HMenu (name : str).
Definition hole_of {B} (a : argument B) : hole :=
  match a with ArgString n _ => HString n | ArgNumber n _ => HNumber n | ArgBoolean n _ => HBoolean n | ArgMenu n _ => HMenu n end.
Definition is_empty {B} (a : argument B) : Prop :=
  match a with ArgString _ v => v = AEmpty | ArgNumber _ v => v = AEmpty | ArgBoolean _ v => v = AEmpty | ArgMenu _ v => v = AEmpty end.
Definition dotted (n : option str) : str := match n with Some x => lit "." ++ x | None => [] end.
Definition hole_text (h : hole) : str :=
  match h with HString n => lit "%s" ++ dotted n | HNumber n => lit "%d" ++ dotted n | HBoolean n => lit "%b" ++ dotted n | HMenu n => lit "%m." ++ n end.
Definition call_text {B} (c : call B) : str := match c with CallText s => s | CallArg a => hole_text (hole_of a) end.
(** the texts and holes of a content, in order *)
Definition shape {B} (i : spec_item B) : str + hole := match i with SText s => inl s | SParam a => inr (hole_of a) end.

Lemma build_items {B} (calls : list (call B)) : build calls = map item_of calls.
Proof.
  unfold build, builder_build, builder_new.
  enough (H : forall acc, fold_left (fun b c => match c with CallText s => builder_text b s | CallArg a => builder_arg b a end) calls acc = acc ++ map item_of calls)
    by apply H.
  induction calls as [|c r IH]; intros acc; cbn; [now rewrite app_nil_r|].
  rewrite IH. destruct c; unfold builder_text, builder_arg; now rewrite <- app_assoc.
Qed.
Lemma to_string_join {B} (items : list (spec_item B)) : content_to_string items = join CH_SPACE (map item_spec items).
Proof.
  unfold content_to_string.
  induction items as [|i r IH]; [reflexivity|]. cbn [flat_map map join].
  destruct r as [|i' r]; [cbn; now rewrite app_nil_r, removelast_last|].
  rewrite <- app_assoc, removelast_app by discriminate. cbn [map] in IH |- *. f_equal.
  cbn [app]. change (CH_SPACE :: flat_map (fun i => item_spec i ++ [CH_SPACE]) (i' :: r)) with ([CH_SPACE] ++ flat_map (fun i => item_spec i ++ [CH_SPACE]) (i' :: r)).
  rewrite removelast_app by (cbn; destruct (item_spec i'); discriminate). now rewrite IH.
Qed.
Lemma item_text {B} (c : call B) : item_spec (item_of c) = call_text c.
Proof. destruct c as [s|[n v|n v|n v|n v]]; try destruct n; reflexivity. Qed.

(** a built content has the texts and arguments of the calls, in order, and prints them separated by spaces *)
Theorem C70_builder {B} (calls : list (call B)) :
  get_args (build calls) = args_of calls /\
  content_to_string (build calls) = join 32 (map call_text calls) /\
  (forall items : list (spec_item B), exists calls', build calls' = items).
Proof.
  rewrite build_items. split; [|split].
  - unfold get_args, args_of. rewrite flat_map_concat_map, map_map, <- flat_map_concat_map. apply flat_map_ext. now intros [s|a].
  - rewrite to_string_join, map_map. f_equal. apply map_ext. apply item_text.
  - intros items. exists (map (fun i => match i with SText s => CallText s | SParam a => CallArg a end) items).
    rewrite build_items, map_map. rewrite <- (map_id items) at 2. apply map_ext. now intros [s|a].
Qed.
Print Assumptions C70_builder.
(** writing through the references of [get_args_mut]: the arguments become the ones written, everything else stays;
    writing what was read changes nothing *)
Theorem C70_set {B} (items : list (spec_item B)) args : length args = length (get_args items) ->
  get_args (set_args items args) = args /\
  Forall2 (fun i j => match i, j with SText s, SText t => s = t | SParam _, SParam _ => True | _, _ => False end) items (set_args items args).
Proof.
  revert args. induction items as [|[s|a] r IH]; cbn; intros args H.
  - destruct args; [auto|discriminate].
  - destruct (IH args H) as [E F]. destruct args; auto.
  - destruct args as [|x args]; [discriminate|]. cbn. destruct (IH args) as [E F]; [now injection H|]. fold (get_args r).
    split; [f_equal; exact E|auto].
Qed.
Print Assumptions C70_set.
Theorem C70_set_same {B} (items : list (spec_item B)) : set_args items (get_args items) = items.
Proof.
  induction items as [|[s|a] r IH]; [reflexivity| |]; cbn.
  - fold (get_args r). rewrite IH. now destruct (get_args r).
  - fold (get_args r). now rewrite IH.
Qed.
Print Assumptions C70_set_same.
Lemma take_fst {B} (items : list (spec_item B)) :
  fst (take_args items) = map (fun i => match i with SText s => SText s | SParam a => SParam (empty_arg a) end) items.
Proof. reflexivity. Qed.
(** [take_args] returns the arguments in order and leaves the same texts and parameters without values, which print the
    same; writing the arguments back gives the content again *)
Theorem C70_take {B} (items rest : list (spec_item B)) args : take_args items = (rest, args) ->
  args = get_args items /\ map shape rest = map shape items /\ Forall is_empty (get_args rest) /\
  content_to_string rest = content_to_string items /\ set_args rest args = items.
Proof.
  unfold take_args. intros [= <- <-]. split; [reflexivity|]. split; [|split; [|split]].
  - rewrite map_map. apply map_ext. now intros [s|[]].
  - apply Forall_forall. intros a H. unfold get_args in H. apply in_flat_map in H as (i & Hi & H). apply in_map_iff in Hi as (j & <- & _).
    destruct j as [s|[n v|n v|n v|n v]]; cbn in H; try contradiction; destruct H as [<-|[]]; reflexivity.
  - rewrite !to_string_join, map_map. f_equal. apply map_ext. now intros [s|[]].
  - induction items as [|[s|a] r IH]; [reflexivity| |]; cbn; fold (get_args r).
    + rewrite IH. now destruct (get_args r).
    + now rewrite IH.
Qed.
Print Assumptions C70_take.
(** the constructors of a block: the colour is that of the category, which is found again *)
Theorem C70_new c op content t s1 s2 :
  let b := block_new c op content t in let b1 := block_new_1substack c op content s1 in let b2 := block_new_2substack c op content s1 s2 in
  (block_category_of b = Ok c /\ block_category_of b1 = Ok c /\ block_category_of b2 = Ok c) /\
  (ab_sub_stack1 b = None /\ ab_sub_stack2 b = None /\ ab_type b = t) /\
  (ab_sub_stack1 b1 = Some s1 /\ ab_sub_stack2 b1 = None /\ block_type_to_string (ab_type b1) = lit "c") /\
  (ab_sub_stack1 b2 = Some s1 /\ ab_sub_stack2 b2 = Some s2 /\ block_type_to_string (ab_type b2) = lit "e") /\
  Forall (fun x => ab_op_code x = op /\ ab_content x = content) [b; b1; b2].
Proof. cbv zeta. repeat split; try (destruct c; reflexivity). repeat constructor. Qed.
Print Assumptions C70_new.
(** the element type of a list is the type that its text says *)
Theorem C70_list_item s i : list_item_from_str s = Some i ->
  (s = lit "List String" /\ list_item_into i = RString) \/ (s = lit "List Number" /\ list_item_into i = RNumber).
Proof.
  unfold list_item_from_str. destruct (str_eqb_spec s (lit "List String")); [intros [= <-]; auto|].
  destruct (str_eqb_spec s (lit "List Number")); [intros [= <-]; auto|discriminate].
Qed.
Print Assumptions C70_list_item.
Example C70_example :
  let a1 : argument ablock := ArgMenu (lit "textview") (AValue (lit "label")) in
  let a2 : argument ablock := ArgString None (AValue (lit "hi")) in
  let c := build [CallArg a1; CallText (lit "setText"); CallArg a2] in
  content_to_string c = lit "%m.textview setText %s" /\ get_args c = [a1; a2] /\
  take_args c = ([SParam (ArgMenu (lit "textview") AEmpty); SText (lit "setText"); SParam (ArgString None AEmpty)], [a1; a2]) /\
  set_args c [a2; a1] = [SParam a2; SText (lit "setText"); SParam a1] /\
  blocks_into_iter blocks_default = [] /\
  block_category_of (block_new CatMath (lit "sqrt") [] (TArgument RNumber)) = Ok CatMath.
Proof. vm_compute. auto 10. Qed.

(** C71. The answers of a counting iterator are those of the iterator it wraps, and the count is the number of calls,
    also of those after the end; the 2^32nd call panics or, without overflow checks, makes the count 0. *)
Lemma nexts_from {S A} (step : S -> option A * S) checks n : forall s k, (checks = false \/ k + N.of_nat n < 4294967296) ->
  nexts step checks n {| ci_iter := s; ci_count := k mod 4294967296 |} =
    Ok (fst (steps step n s), {| ci_iter := snd (steps step n s); ci_count := (k + N.of_nat n) mod 4294967296 |}).
Proof.
  induction n as [|n IH]; intros s k H.
  - cbn [nexts steps fst snd]. now rewrite N.add_0_r.
  - cbn [nexts steps]. unfold counting_next. cbn [ci_count ci_iter].
    assert (E : checks && (k mod 4294967296 =? 4294967295) = false).
    { destruct H as [->|H]; [reflexivity|]. rewrite N.mod_small by lia. destruct (N.eqb_spec k 4294967295) as [->|]; [|apply Bool.andb_false_r]. lia. }
    rewrite E. destruct (step s) as [a s1]. cbn [bind].
    rewrite N.add_mod_idemp_l by discriminate. rewrite IH by (destruct H; [auto|right; lia]).
    destruct (steps step n s1) as [l s2]. cbn [bind fst snd]. do 4 f_equal. lia.
Qed.
Theorem C71_counts {S A} (step : S -> option A * S) checks n s : N.of_nat n < 4294967296 ->
  nexts step checks n (counting_new s) = Ok (fst (steps step n s), {| ci_iter := snd (steps step n s); ci_count := N.of_nat n |}).
Proof.
  intros H. unfold counting_new. change 0 with (0 mod 4294967296) at 1. rewrite nexts_from by (right; lia).
  now rewrite N.add_0_l, N.mod_small.
Qed.
Print Assumptions C71_counts.
Theorem C71_wraps {S A} (step : S -> option A * S) n s :
  nexts step false n (counting_new s) = Ok (fst (steps step n s), {| ci_iter := snd (steps step n s); ci_count := N.of_nat n mod 4294967296 |}).
Proof. unfold counting_new. change 0 with (0 mod 4294967296) at 1. rewrite nexts_from by auto. now rewrite N.add_0_l. Qed.
Print Assumptions C71_wraps.
Theorem C71_overflow {S A} (step : S -> option A * S) n s : 4294967296 <= N.of_nat n ->
  nexts step true n (counting_new s) = Panic.
Proof.
  intros H. assert (P : forall m k c, ci_count c + N.of_nat k = 4294967295 -> nexts step true (k + Datatypes.S m) c = Panic).
  { intros m k. induction k as [|k IH]; intros c Hc; cbn [nexts plus]; unfold counting_next.
    - replace (ci_count c) with 4294967295 by lia. reflexivity.
    - destruct (N.eqb_spec (ci_count c) 4294967295) as [E|E]; [cbn; reflexivity|]. cbn [andb].
      destruct (step (ci_iter c)) as [a s1]. cbn [bind]. rewrite IH; [reflexivity|]. cbn [ci_count]. rewrite N.mod_small by lia. lia. }
  specialize (P (n - N.to_nat 4294967296)%nat (N.to_nat 4294967295) (counting_new s)). rewrite N2Nat.id in P.
  specialize (P eq_refl). rewrite <- P. f_equal. lia.
Qed.
Print Assumptions C71_overflow.
(** over a list: the first [n] elements, then nothing *)
Theorem C71_list {A} checks n (l : list A) : N.of_nat n < 4294967296 ->
  nexts list_step checks n (counting_new l) =
    Ok (map Some (firstn n l) ++ repeat None (n - length l), {| ci_iter := skipn n l; ci_count := N.of_nat n |}).
Proof.
  intros H. rewrite C71_counts by assumption.
  assert (E : steps list_step n l = (map Some (firstn n l) ++ repeat None (n - length l), skipn n l)).
  { clear H. revert l. induction n as [|n IH]; intros l; [reflexivity|]. destruct l as [|a l]; cbn [steps list_step].
    - rewrite IH. now rewrite firstn_nil, skipn_nil, Nat.sub_0_r.
    - rewrite IH. reflexivity. }
  now rewrite E.
Qed.
Print Assumptions C71_list.
Example C71_example : nexts list_step true 4 (counting_new [lit "a"; lit "b"]) =
  Ok ([Some (lit "a"); Some (lit "b"); None; None], {| ci_iter := []; ci_count := 4 |}) /\
  counting_next list_step true {| ci_iter := [lit "a"]; ci_count := 4294967295 |} = Panic /\
  counting_next list_step false {| ci_iter := [lit "a"]; ci_count := 4294967295 |} = Ok (Some (lit "a"), {| ci_iter := []; ci_count := 0 |}).
Proof. vm_compute. auto. Qed.
