(** Properties of blocks (api/block.rs): C09, C24 (blocks), C27-C35, C55. *)
From Verif Require Import Base Spec Str Dec Flt FltProofs M_Color ColorProofs M_Logic A_Block SpecBlock BlockContentProofs BlockProofs BlockReadProofs BlockWriteProofs BlockTripProofs.
From Coq Require Import ZifyNat ZifyN ZifyBool.

(** ** C09: categories and colours *)
Theorem C09_round_trip k : category_of_color (color_of_category k) = Ok k.
Proof. destruct k; reflexivity. Qed.
Print Assumptions C09_round_trip.
(** [cval c] is the ARGB value of the colour; [mod 2^24] drops the alpha *)
Theorem C09_exact b k : block_category_of b = Ok k <-> cval (ab_color b) mod 2 ^ 24 = rgb24 k.
Proof.
  unfold block_category_of. generalize (ab_color b). intros c. clear b. unfold category_of_color.
  assert (V : forall r g b, r < 256 -> g < 256 -> b < 256 -> {cval c mod 2 ^ 24 = r * 2 ^ 16 + g * 2 ^ 8 + b /\ rgb_eqb (rgb c) (r, g, b) = true} +
    {cval c mod 2 ^ 24 <> r * 2 ^ 16 + g * 2 ^ 8 + b /\ rgb_eqb (rgb c) (r, g, b) = false}).
  { intros r g b Hr Hg Hb. pose proof (rgb_eqb_value c r g b Hr Hg Hb) as E. destruct (rgb_eqb (rgb c) (r, g, b)); [left|right]; split; auto; [now apply E|].
    intros X. apply E in X. discriminate. }
  set (v := cval c mod 2 ^ 24) in *. clearbody v.
  repeat match goal with |- context [if rgb_eqb (rgb c) (?r, ?g, ?b) then _ else _] =>
    let X := fresh in destruct (V r g b eq_refl eq_refl eq_refl) as [[X ->]|[X ->]]; [rewrite X; destruct k; cbn [rgb24]; split; intros Y; vm_compute in Y |- *; congruence|] end.
  split; [discriminate|]. intros ->. exfalso. destruct k; cbn [rgb24] in *;
    repeat match goal with H : ?a <> ?b |- _ => vm_compute in H; first [now apply H|clear H] end.
Qed.
Print Assumptions C09_exact.
Theorem C09_total b : block_category_of b <> Panic.
Proof. unfold block_category_of, category_of_color. repeat match goal with |- context [if ?x then _ else _] => destruct x; [discriminate|] end. discriminate. Qed.
Print Assumptions C09_total.
Definition ex_block (argb : N) : ablock := MkBlock None None (color_of_u32 argb) (lit "op") [SText (lit "x")] TRegular.
Example C09_example :
  block_category_of (ex_block 0x003D5CB7) = Err (color_of_u32 0x003D5CB7) /\ block_category_of (ex_block 0x7F5CB722) = Ok CatOperator /\
  block_category_of (ex_block 0xFFFCA5E2) = Ok CatComponentFunc /\ color_of_category CatList = color_of_u32 0xFFCC5B22.
Proof. repeat split; vm_compute; reflexivity. Qed.

(** ** Examples used below *)
Definition rb (id : N) (next : Z) (op spec : str) (ps : list str) (s1 s2 : Z) (ty tn : str) : block :=
  {| bl_color := color_of_u32 0xFF5CB722; bl_id := dec_of_N id; bl_next_block := next; bl_op_code := op; bl_parameters := ps; bl_spec := spec;
     bl_sub_stack1 := s1; bl_sub_stack2 := s2; bl_type := ty; bl_type_name := tn |}.
Definition green := color_of_u32 0xFF5CB722.
Definition ex_cont : list block :=
  [rb 10 13 (lit "if") (lit "if %b then") [lit "@12"] 11 (-1) (lit "c") [];
   rb 11 (-1) (lit "toast") (lit "Toast %s.text") [lit "hi there"; lit "surplus"] (-1) (-1) (lit " ") [];
   rb 12 (-1) (lit "true") (lit "true") [] (-1) (-1) (lit "b") [];
   rb 13 (-1) (lit "wait") (lit "wait %d ms") [lit "2.5"] (-1) (-1) (lit " ") []].
Definition ex_tree : blocks :=
  [MkBlock (Some [MkBlock None None green (lit "toast") [SText (lit "Toast"); SParam (ArgString (Some (lit "text")) (AValue (lit "hi there")))] TRegular]) None
     green (lit "if") [SText (lit "if"); SParam (ArgBoolean None (AValue true)); SText (lit "then")] (TControl OneNest);
   MkBlock None None green (lit "wait") [SText (lit "wait"); SParam (ArgNumber None (AValue (FFin false 5629499534213120 (-51)))); SText (lit "ms")] TRegular].

(** ** C27: conversion terminates *)
(** [try_from_depth d] is the interpreter whose recursion may be [d] deep, [None] if that is not enough *)
Theorem C27_terminates c : exists r, forall d, (2 * length c + 2 <= d)%nat -> try_from_depth d c = Some r.
Proof. exists (blocks_try_from c). intros d H. apply try_from_total. unfold enough. lia. Qed.
Print Assumptions C27_terminates.
(** [blocks_try_from], the function used everywhere else, is that result, and no smaller depth gives another one *)
Theorem C27_result c d r : try_from_depth d c = Some r -> r = blocks_try_from c.
Proof.
  intros H. pose proof (try_from_total c (max d (enough c)) ltac:(lia)) as T. rewrite (try_from_depth_mono c d (max d (enough c)) r) in T; [congruence|lia|auto].
Qed.
Print Assumptions C27_result.
Example C27_example :
  (* a cycle through next, a block that contains itself as its argument, a dangling pointer *)
  blocks_try_from [rb 10 11 (lit "a") (lit "a") [] (-1) (-1) (lit " ") []; rb 11 10 (lit "b") (lit "b") [] (-1) (-1) (lit " ") []] = Err (BlockNotFound 10) /\
  blocks_try_from [rb 10 (-1) (lit "a") (lit "%s") [lit "@10"] (-1) (-1) (lit " ") []] = Err (BlockContentParseError (CeBlockNotFound 10)) /\
  blocks_try_from [rb 10 (-1) (lit "a") (lit "a") [] 77 (-1) (lit "c") []] = Err (Substack1ParseError 10 77 (BlockNotFound 77)) /\
  try_from_depth 3 [rb 10 11 (lit "a") (lit "a") [] (-1) (-1) (lit " ") []; rb 11 10 (lit "b") (lit "b") [] (-1) (-1) (lit " ") []] <> try_from_depth 2 [rb 10 11 (lit "a") (lit "a") [] (-1) (-1) (lit " ") []; rb 11 10 (lit "b") (lit "b") [] (-1) (-1) (lit " ") []].
Proof. repeat split; vm_compute; try reflexivity. discriminate. Qed.

(** ** C55: conversion is the reading of the pointer graph *)
Theorem C55_reading c t : blocks_try_from c = Ok t <-> exists u, reads_container c t u /\ NoDup u.
Proof. apply try_from_iff. Qed.
Print Assumptions C55_reading.
Example C55_example : blocks_try_from ex_cont = Ok ex_tree.
Proof. vm_compute. reflexivity. Qed.

(** ** C28: no raw block is used twice *)
Theorem C28_linear c t : blocks_try_from c = Ok t ->
  exists u, reads_container c t u /\ NoDup u /\ (forall k, In k u -> exists pb, In pb c /\ parse_u32 (bl_id pb) = Some k) /\
    (blocks_count t <= length u <= length c)%nat.
Proof.
  intros H. apply try_from_iff in H as (u & R & N). exists u. split; [auto|split; [auto|]].
  assert (I : forall k, In k u -> exists pb, In pb c /\ parse_u32 (bl_id pb) = Some k).
  { destruct R as [_ [(-> & -> & ->)|(id & _ & R)]]; [intros ? []|]. intros k K.
    destruct (proj1 (proj2 (proj2 (reads_uses (graph c)))) _ _ _ R k K) as (pb & (a & r & -> & P & _)). exists pb. split; [apply in_app_iff; right; now left|auto]. }
  split; [exact I|]. split.
  - destruct R as [_ [(-> & -> & ->)|(id & _ & R)]]; [cbn; lia|]. now apply (proj1 (proj2 (proj2 (reads_count (graph c))))) in R.
  - rewrite <- (map_length (fun b => parse_u32 (bl_id b)) c), <- (map_length Some u). apply NoDup_incl_length.
    + apply FinFun.Injective_map_NoDup; auto. intros x y [= ->]. reflexivity.
    + intros x X. apply in_map_iff in X as (k & <- & K). apply I in K as (pb & J & <-). apply in_map_iff. eauto.
Qed.
Print Assumptions C28_linear.
Example C28_example : blocks_count ex_tree = 3%nat /\ blocks_size ex_tree = 4%nat /\ length ex_cont = 4%nat /\
  (* sharing is refused *)
  blocks_try_from [rb 10 (-1) (lit "a") (lit "%s %s") [lit "@11"; lit "@11"] (-1) (-1) (lit " ") []; rb 11 (-1) (lit "b") (lit "b") [] (-1) (-1) (lit "s") []]
  = Err (BlockContentParseError (CeBlockNotFound 11)).
Proof. repeat split; vm_compute; reflexivity. Qed.

(** ** C24, the part about blocks *)
Lemma bad_word_token t : bad_word t <-> bad_token t.
Proof.
  unfold bad_word, bad_token. apply or_iff_compat_l. apply or_iff_compat_r. split; intros (r & -> & H); exists r; (split; [reflexivity|]); now apply (name_of_iff r None).
Qed.
Theorem C24_blocks_partial c : (forall pb ws t, In pb c -> words (bl_spec pb) ws -> In t ws -> ~ bad_word t) -> blocks_try_from c <> Panic.
Proof.
  intros H P. apply try_from_panic in P as (pb & t & I & It & B). apply bad_word_token in B. revert B. eapply H; eauto. now apply words_split.
Qed.
Print Assumptions C24_blocks_partial.
(** the specs alone *)
Theorem C24_spec_partial spec args :
  (@parse_wo_params ablock spec = Panic \/ @content_parse ablock spec args = Panic) -> exists ws t, words spec ws /\ In t ws /\ bad_word t.
Proof.
  intros [H|H]; [apply items_wo_panic in H as (t & I & B)|apply items_parse_panic in H as (t & I & B)];
    exists (split_on CH_SPACE spec), t; (split; [now apply words_split|]); (split; [exact I|]); now apply bad_word_token.
Qed.
Print Assumptions C24_spec_partial.
Theorem C24_blocks_refuted t args : ~ In 32 t -> bad_word t ->
  @parse_wo_params ablock t = Panic /\ @content_parse ablock t args = Panic /\
  blocks_try_from [rb 10 (-1) (lit "op") t args (-1) (-1) (lit " ") []] = Panic.
Proof.
  intros S B. apply bad_word_token in B. destruct (@bad_token_panics ablock t args B) as [P1 P2]. pose proof (bad_token_param t B) as [r Er].
  assert (E : split_on CH_SPACE t = [t]) by (apply split_on_noc; exact S).
  assert (W : starts_with [CH_PERCENT] t = true) by (rewrite Er, starts_percent; reflexivity).
  assert (Q1 : @parse_wo_params ablock t = Panic) by (unfold parse_wo_params; rewrite E; cbn [items_wo_params]; rewrite W, P2; reflexivity).
  assert (Q2 : @content_parse ablock t args = Panic) by (unfold content_parse; rewrite E; cbn [items_parse]; rewrite W, P1; reflexivity).
  split; [exact Q1|split; [exact Q2|]].
  unfold blocks_try_from. set (c := [rb 10 (-1) (lit "op") t args (-1) (-1) (lit " ") []]).
  change (enough c) with 4%nat. unfold try_from_depth. change (to_map c []) with (@Ok conv_error _ [(10, rb 10 (-1) (lit "op") t args (-1) (-1) (lit " ") [])]).
  cbn [obnd]. rewrite parse_blocks_S. rewrite parse_block_S. cbn [bget lget N.eqb Pos.eqb ok_or obnd rb bl_sub_stack1 bl_sub_stack2 sub_step Z.ltb Z.compare bl_spec bl_parameters].
  rewrite Q2. reflexivity.
Qed.
Print Assumptions C24_blocks_refuted.
Example C24_blocks_example :
  blocks_try_from [rb 10 (-1) (lit "op") (lit "100 %") [] (-1) (-1) (lit " ") []] = Panic /\
  blocks_try_from [rb 10 (-1) (lit "op") (lit "100 %x") [] (-1) (-1) (lit " ") []] = Err (BlockContentParseError (CeUnknownSpecParam (lit "x") (lit "%x"))).
Proof. split; vm_compute; reflexivity. Qed.

(** ** C29: ids of the raw blocks *)
Theorem C29_ids l c : blocks_into l = Ok c -> (forall i b, nth_error c i = Some b -> bl_id b = dec_of_N (10 + N.of_nat i)) /\ NoDup (map bl_id c).
Proof. intros H. apply into_numbered in H as [Hn _]. split; [exact (proj2 Hn)|now apply numbered_nodup in Hn]. Qed.
Print Assumptions C29_ids.
(** the conversion fails exactly for a tree with a hole ([BlockPlaceholder]); ids must fit into an i32 *)
Theorem C29_total l : 9 + N.of_nat (blocks_size l) < 2 ^ 31 -> (exists c, blocks_into l = Ok c) <-> Forall no_holes l.
Proof. apply into_total. Qed.
Print Assumptions C29_total.
Theorem C29_count l c : blocks_into l = Ok c -> length c = blocks_size l.
Proof. apply into_sized. Qed.
Print Assumptions C29_count.
Definition ex_nested : blocks :=
  [MkBlock (Some [MkBlock None None green (lit "p") [SText (lit "p"); SParam (ArgNumber None (ABlock (MkBlock None None green (lit "q") [SText (lit "q")] (TArgument RNumber))))] TRegular;
                  MkBlock None None green (lit "r") [SText (lit "r")] TRegular])
     (Some []) green (lit "ie") [SText (lit "ie"); SParam (ArgBoolean None (AValue false))] (TControl TwoNest);
   MkBlock None None green (lit "z") [SText (lit "z")] TRegular].
Example C29_example : rmap (map (fun b => (bl_id b, bl_next_block b, bl_op_code b, bl_sub_stack1 b, bl_parameters b))) (blocks_into ex_nested) = Ok
  [(lit "10", 15%Z, lit "ie", 14%Z, [lit "@11"]); (lit "11", (-1)%Z, lit "false", (-1)%Z, []); (lit "12", 14%Z, lit "p", (-1)%Z, [lit "@13"]);
   (lit "13", (-1)%Z, lit "q", (-1)%Z, []); (lit "14", (-1)%Z, lit "r", (-1)%Z, []); (lit "15", (-1)%Z, lit "z", (-1)%Z, [])].
Proof. vm_compute. reflexivity. Qed.

(** ** C30: next pointers *)
Theorem C30_chain l c : blocks_into l = Ok c -> 9 + N.of_nat (length c) < 2 ^ 31 ->
  exists tops, Forall2 raw_of l tops /\ forall tops', chain c (match l with [] => -1 | _ => 10 end) tops' <-> tops' = tops.
Proof.
  intros H L. pose proof (into_stack _ _ H) as Hs. destruct (stack_chain _ _ _ _ Hs L) as (tops & F & C). exists tops. split; [exact F|].
  assert (C' : chain c (match l with [] => -1 | _ => 10 end) tops) by (destruct l; exact C).
  intros tops'. split; [|now intros ->]. intros X. apply into_numbered in H as [Hn _]. eapply chain_fun; eauto. now apply numbered_nodup in Hn.
Qed.
Print Assumptions C30_chain.
Example C30_example : exists c, blocks_into ex_nested = Ok c /\ exists x y, chain c 10 [x; y] /\ bl_op_code x = lit "ie" /\ bl_op_code y = lit "z".
Proof.
  eexists. split; [vm_compute; reflexivity|]. do 2 eexists. split.
  - eapply chain_step; [left; reflexivity|lia|reflexivity|]. eapply chain_step; [do 5 right; left; reflexivity|cbn; lia|reflexivity|]. apply chain_end.
  - split; reflexivity.
Qed.

(** ** C31: blocks through a container and back *)
(** Exactly the [kept] blocks come back: nested arguments and sub stacks must be single leaf blocks, because a sub stack or an argument
    is referred to by the id of its last raw block instead of its first *)
Theorem C31_partial l c : blocks_into l = Ok c -> 9 + N.of_nat (length c) < 2 ^ 31 -> blocks_try_from c = Ok l <-> Forall kept l.
Proof. apply trip_iff. Qed.
Print Assumptions C31_partial.
(** a sub stack of two blocks, an argument with an argument: both lose blocks *)
Theorem C31_refuted : exists l, Forall no_holes l /\ (exists c, blocks_into l = Ok c /\ exists l', blocks_try_from c = Ok l' /\ l' <> l).
Proof.
  exists [MkBlock (Some [MkBlock None None green (lit "p") [SText (lit "p")] TRegular; MkBlock None None green (lit "q") [SText (lit "q")] TRegular]) None
            green (lit "if") [SText (lit "if")] (TControl OneNest)].
  split; [repeat constructor; cbn; auto|]. eexists. split; [vm_compute; reflexivity|]. eexists. split; [vm_compute; reflexivity|]. discriminate.
Qed.
Print Assumptions C31_refuted.
Example C31_example :
  Forall kept ex_tree /\ (let* c := blocks_into ex_tree in map_err (fun _ => tt) (blocks_try_from c)) = Ok ex_tree.
Proof.
  split; [|vm_compute; reflexivity].
  assert (T : forall t, existsb (N.eqb 32) t = false -> match t with c :: _ => c =? 37 | [] => false end = false -> text_ok t).
  { intros t H1 H2. split; [intros I; apply existsb_eqb in I; congruence|]. intros [r ->]. discriminate. }
  assert (N : forall t, existsb (N.eqb 32) t = false -> t <> [] -> name_ok (Some t)).
  { intros t H1 H2. split; [exact H2|]. intros I. apply existsb_eqb in I. congruence. }
  apply Forall_cons; [|apply Forall_cons; [|constructor]].
  - split; [right; eexists; split; [reflexivity|]|].
    + split; [reflexivity|split; [reflexivity|split; [exact I|split; [discriminate|]]]]. cbn [ab_content].
      apply Forall_cons; [now apply T|]. apply Forall_cons; [|constructor]. split; [now apply N|]. cbn. discriminate.
    + split; [now left|split; [exact I|split; [discriminate|]]]. cbn [ab_content].
      apply Forall_cons; [now apply T|]. apply Forall_cons; [split; exact I|]. apply Forall_cons; [now apply T|constructor].
  - split; [now left|split; [now left|split; [exact I|split; [discriminate|]]]]. cbn [ab_content].
    apply Forall_cons; [now apply T|]. apply Forall_cons; [split; [exact I|reflexivity]|]. apply Forall_cons; [now apply T|constructor].
Qed.
Example C31_refuted_example :
  (* q was the argument of p; what comes back is q in the place of p *)
  let q := MkBlock None None green (lit "q") [SText (lit "q")] (TArgument RString) in
  let p x := MkBlock None None green (lit "p") [SParam (ArgString None (ABlock x))] (TArgument RString) in
  (let* c := blocks_into [p (p q)] in map_err (fun _ => tt) (blocks_try_from c)) = Ok [p q].
Proof. vm_compute. reflexivity. Qed.

(** ** C32: specs *)
(** what the printer writes for a content: the words of its items *)
Theorem C32_print spec ws is : words spec ws -> @parse_wo_params ablock spec = Ok is ->
  content_to_string is = spec <-> Forall (fun t => is_param t -> written_param t) ws.
Proof. apply print_parsed. Qed.
Print Assumptions C32_print.
Theorem C32_parses spec ws : words spec ws -> Forall (fun t => is_param t -> written_param t) ws ->
  exists is, @parse_wo_params ablock spec = Ok is /\ content_to_string is = spec.
Proof.
  intros W F. destruct (@written_parses ablock ws F) as [is H]. exists is.
  assert (P : @parse_wo_params ablock spec = Ok is) by (unfold parse_wo_params; apply (proj1 (words_split _ _)) in W; now rewrite <- W).
  split; [exact P|]. now apply (print_parsed spec ws is W P).
Qed.
Print Assumptions C32_parses.
Theorem C32_parse_printed (is : list (spec_item ablock)) : parse_wo_params (content_to_string is) = Ok is <-> is <> [] /\ Forall plain_item is.
Proof. apply parse_printed. Qed.
Print Assumptions C32_parse_printed.
Example C32_example :
  @parse_wo_params ablock (lit "set %m.view  to %s.x %d") = Ok [SText (lit "set"); SParam (ArgMenu (lit "view") AEmpty); SText []; SText (lit "to");
    SParam (ArgString (Some (lit "x")) AEmpty); SParam (ArgNumber None AEmpty)] /\
  rmap content_to_string (@parse_wo_params ablock (lit "%s. %dx")) = Ok (lit "%s %d").
Proof. split; vm_compute; reflexivity. Qed.

(** ** C33: arguments at once or later *)
Theorem C33_partial spec args is0 : @parse_wo_params ablock spec = Ok is0 -> menus_plain is0 args -> content_parse spec args = apply_args is0 args.
Proof. apply items_apply. Qed.
Print Assumptions C33_partial.
(** exact on success: the two contents agree iff no menu argument starts with '@' *)
Theorem C33_exact_partial spec args is : @content_parse ablock spec args = Ok is ->
  exists is0, parse_wo_params spec = Ok is0 /\ (apply_args is0 args = Ok is <-> menus_plain is0 args).
Proof.
  intros H. pose proof H as H'. apply items_parse_iff in H'. destruct (gives_wo _ _ _ H') as (is0 & P & _ & M). exists is0. split; [exact P|]. split; [exact M|].
  intros K. rewrite <- H. symmetry. now apply items_apply.
Qed.
Print Assumptions C33_exact_partial.
Theorem C33_refuted : exists spec args is0 is is', @parse_wo_params ablock spec = Ok is0 /\ content_parse spec args = Ok is /\ apply_args is0 args = Ok is' /\ is <> is'.
Proof. exists (lit "%m.view"), [lit "@10"]. do 3 eexists. repeat split; try (vm_compute; reflexivity). discriminate. Qed.
Print Assumptions C33_refuted.
Example C33_example :
  @content_parse ablock (lit "%m.v %s %b") [lit "a"; lit "@7"; lit "true"] =
    (let* is := parse_wo_params (lit "%m.v %s %b") in apply_args is [lit "a"; lit "@7"; lit "true"]) /\
  @content_parse ablock (lit "%m.v %s %b") [lit "a"; lit "@7"; lit "true"] =
    Ok [SParam (ArgMenu (lit "v") (AValue (lit "a"))); SParam (ArgString None (APlaceholder 7)); SParam (ArgBoolean None (AValue true))].
Proof. split; vm_compute; reflexivity. Qed.

(** ** C34: one argument per parameter, in order *)
Theorem C34_in_order spec args is : @content_parse ablock spec args = Ok is ->
  (exists used extra, args = used ++ extra /\ Forall2 carries used (get_args is)) /\
  (forall extra, content_parse spec (args ++ extra) = Ok is) /\
  (forall ws, words spec ws -> length (get_args is) = count_params ws).
Proof.
  intros H. apply items_parse_iff in H. split; [eapply gives_carries; eauto|]. split.
  - intros extra. apply items_parse_iff. now apply gives_surplus.
  - intros ws W. apply (proj1 (words_split _ _)) in W. subst ws. apply gives_count in H as [-> _].
    unfold param_count, count_params. f_equal. apply filter_ext. intros t. apply starts_percent.
Qed.
Print Assumptions C34_in_order.
(** complete: [gives] says which words and arguments give which items *)
Theorem C34_exact spec args is : @content_parse ablock spec args = Ok is <-> exists ws, words spec ws /\ gives ws args is.
Proof.
  unfold content_parse. rewrite items_parse_iff. split.
  - intros H. exists (split_on CH_SPACE spec). split; [now apply words_split|exact H].
  - intros (ws & W & H). apply (proj1 (words_split _ _)) in W. now subst ws.
Qed.
Print Assumptions C34_exact.
Theorem C34_too_few spec args ws is : words spec ws -> (length args < count_params ws)%nat -> @content_parse ablock spec args <> Ok is.
Proof.
  intros W L H. apply items_parse_iff in H. apply (proj1 (words_split _ _)) in W. subst ws. apply gives_count in H as [_ H].
  assert (E : param_count (split_on CH_SPACE spec) = count_params (split_on CH_SPACE spec)) by (unfold param_count, count_params; f_equal; apply filter_ext; intros t; apply starts_percent).
  change CH_SPACE with 32 in *. lia.
Qed.
Print Assumptions C34_too_few.
Example C34_example :
  @content_parse ablock (lit "%s x %d") [lit "a"; lit "-1e3"; lit "more"] =
    Ok [SParam (ArgString None (AValue (lit "a"))); SText (lit "x"); SParam (ArgNumber None (AValue (FFin true 8796093022208000 (-43))))] /\
  @content_parse ablock (lit "%s x %d") [lit "a"] = Err CeRanOutOfArgs.
Proof. split; vm_compute; reflexivity. Qed.

(** ** C35: block types *)
Theorem C35_partial t : block_type_from (block_type_to_string t) (match get_typename t with Some n => n | None => [] end) = Ok t <-> not_list t.
Proof. split; [intros H; now apply type_back_inv in H|apply type_back]. Qed.
Print Assumptions C35_partial.
Theorem C35_refuted i : exists e, block_type_from (block_type_to_string (TArgument (RList i))) (match get_typename (TArgument (RList i)) with Some n => n | None => [] end) = Err e.
Proof. eexists. reflexivity. Qed.
Print Assumptions C35_refuted.
Example C35_example : block_type_from (lit "v") (lit "TextView") = Ok (TArgument (RView (lit "TextView"))) /\ block_type_from (lit "l") (lit "List Number") = Ok (TArgument (RList LiNumber)).
Proof. split; vm_compute; reflexivity. Qed.
