(** Properties C12, C21, C22 and C23 (the [logic] data file). *)
From Coq Require Import Permutation.
From Verif Require Import Base Str Spec Dec Flt Json M_Color M_Logic LogicProofs LogicFileProofs LogicMapProofs LogicCutProofs.

(** C12: the values the Rust types can hold *)
Definition component_typed (x : component) : Prop := co_type x < 2 ^ 8.
Definition event_typed (x : event) : Prop := ev_type x < 2 ^ 8 /\ ev_target_type x < 2 ^ 8.
Definition is_i32 (z : Z) : Prop := (-2 ^ 31 <= z < 2 ^ 31)%Z.
Definition block_typed (x : block) : Prop :=
  cval (bl_color x) < 2 ^ 32 /\ is_i32 (bl_next_block x) /\ is_i32 (bl_sub_stack1 x) /\ is_i32 (bl_sub_stack2 x).
Lemma component_typed_ok x : component_typed x -> component_ok x.
Proof. unfold component_typed, component_ok. change (2 ^ 8) with 256. lia. Qed.
Lemma event_typed_ok x : event_typed x -> event_ok x.
Proof. unfold event_typed, event_ok. change (2 ^ 8) with 256. lia. Qed.
Lemma block_typed_ok x : block_typed x -> block_ok x.
Proof. unfold block_typed, block_ok, is_i32, i32_ok. change (2 ^ 32) with 4294967296. change (2 ^ 31)%Z with 2147483648%Z. lia. Qed.
Theorem C12_component x : component_typed x -> component_parse (component_reconstruct x) = Ok x.
Proof. intros H. now apply component_rt, component_typed_ok. Qed.
Print Assumptions C12_component.
Theorem C12_event x : event_typed x -> event_parse (event_reconstruct x) = Ok x.
Proof. intros H. now apply event_rt, event_typed_ok. Qed.
Print Assumptions C12_event.
Theorem C12_block x : block_typed x -> block_parse (block_reconstruct x) = Ok x.
Proof. intros H. now apply block_rt, block_typed_ok. Qed.
Print Assumptions C12_block.
(** the lists of them, too *)
Theorem C12_pools cs es bs : Forall component_typed cs -> Forall event_typed es -> Forall block_typed bs ->
  component_pool_parse (component_pool_reconstruct cs) = Ok cs /\ event_pool_parse (event_pool_reconstruct es) = Ok es /\
  block_container_parse (block_container_reconstruct bs) = Ok bs.
Proof.
  intros H1 H2 H3. split; [|split].
  - apply component_pool_rt. eapply Forall_impl; [apply component_typed_ok|exact H1].
  - apply event_pool_rt. eapply Forall_impl; [apply event_typed_ok|exact H2].
  - apply block_container_rt. eapply Forall_impl; [apply block_typed_ok|exact H3].
Qed.
Print Assumptions C12_pools.
Definition ex_block (id : str) (next : Z) : block :=
  {| bl_color := {| cval := 4294967295 |}; bl_id := id; bl_next_block := next; bl_op_code := lit "doToast";
     bl_parameters := [lit "a""" ++ [10]; []; lit "@11"]; bl_spec := lit "Toast %s"; bl_sub_stack1 := -1; bl_sub_stack2 := 2147483647;
     bl_type := lit " "; bl_type_name := [] |}.
Example C12_example :
  block_reconstruct (ex_block (lit "10") (-2147483648)) =
   lit "{""color"":-1,""id"":""10"",""nextBlock"":-2147483648,""opCode"":""doToast"",""parameters"":[""a\""\n"","""",""@11""],""spec"":""Toast %s"",""subStack1"":-1,""subStack2"":2147483647,""type"":"" "",""typeName"":""""}" /\
  block_parse (block_reconstruct (ex_block (lit "10") (-2147483648))) = Ok (ex_block (lit "10") (-2147483648)) /\
  component_pool_parse (component_pool_reconstruct [component_new_empty (lit "x" ++ [10]) 255; component_new_1param [] (lit "p") 0]) =
    Ok [component_new_empty (lit "x" ++ [10]) 255; component_new_1param [] (lit "p") 0].
Proof. vm_compute. auto. Qed.

(** C21 *)
Theorem C21_variable v : variable_parse (variable_reconstruct v) = Ok v.
Proof. apply variable_rt. Qed.
Print Assumptions C21_variable.
Theorem C21_list_variable v : list_variable_parse (list_variable_reconstruct v) = Ok v.
Proof. apply list_variable_rt. Qed.
Print Assumptions C21_list_variable.
Lemma in_first (c : N) l : In c l -> exists a b, l = a ++ c :: b /\ ~ In c a.
Proof.
  induction l as [|x l IH]; [intros []|]. destruct (N.eq_dec x c) as [->|Hne]; [intros _; exists [], l; auto|].
  intros [H|H]; [congruence|]. destruct (IH H) as (a & b & -> & Ha). exists (x :: a), b. split; [reflexivity|]. intros [E|E]; [congruence|auto].
Qed.
Theorem C21_more_block m : more_block_parse (more_block_reconstruct m) = Ok m <-> ~ In 58 (mb_id m).
Proof.
  split; [|apply more_block_rt]. intros H Hi. unfold more_block_parse, more_block_reconstruct in H. change (lit ":") with [58] in H.
  destruct (in_first 58 (mb_id m) Hi) as (a & b & E & Na). rewrite E in H. rewrite <- app_assoc in H. cbn [app] in H.
  rewrite split_once_char in H by auto. cbn [ok_or bind] in H. injection H as H. rewrite <- H in E. cbn [mb_id] in E.
  apply (f_equal (@length N)) in E. rewrite app_length in E. cbn in E. lia.
Qed.
Print Assumptions C21_more_block.
(** a pool as the program builds them: keyed by the names of its entries, in insertion order; names
    without newline, the last line not ending in white space *)
Definition pool_typed {A} (name : A -> str) (last_part : A -> str) (p : smap A) : Prop :=
  NoDup (map fst p) /\ Forall (fun kv => fst kv = name (snd kv) /\ ~ In 10 (fst kv)) p /\
  (forall r k x s c, p = r ++ [(k, x)] -> last_part x = s ++ [c] -> is_ws c = false).
Definition more_blocks_typed (p : more_block_pool) : Prop :=
  pool_typed mb_id mb_spec p /\ Forall (fun kv => ~ In 58 (fst kv) /\ ~ In 10 (mb_spec (snd kv))) p /\
  (forall k x r c n, p = (k, x) :: r -> k = c :: n -> is_ws c = false).
Lemma pool_typed_split {A} (name lp : A -> str) p : pool_typed name lp p -> own_map name p /\ Forall (fun kv => ~ In NL (fst kv)) p /\ last_name_ok lp p.
Proof.
  intros (N & F & L). split; [split; auto|split; auto]; eapply Forall_impl; try exact F; cbn; tauto.
Qed.
Lemma more_blocks_typed_ok p : more_blocks_typed p -> more_block_pool_ok p.
Proof.
  intros (P & F & W). apply pool_typed_split in P as (O & NLs & L). split; [auto|split; [|split; [auto|]]].
  - rewrite Forall_forall in *. intros kv Hk. specialize (F kv Hk). specialize (NLs kv Hk). tauto.
  - intros k x r c n E Hc. apply (W k x r c n E). destruct O as [_ O]. rewrite E in O. apply Forall_inv in O. cbn in O. congruence.
Qed.
Theorem C21_variable_pool p : pool_typed va_name va_name p -> variable_pool_parse (variable_pool_reconstruct p) = Ok p.
Proof. intros H. apply variable_pool_rt. now apply pool_typed_split. Qed.
Print Assumptions C21_variable_pool.
Theorem C21_list_variable_pool p : pool_typed lv_name lv_name p -> list_variable_pool_parse (list_variable_pool_reconstruct p) = Ok p.
Proof. intros H. apply list_variable_pool_rt. now apply pool_typed_split. Qed.
Print Assumptions C21_list_variable_pool.
Theorem C21_more_block_pool p : more_blocks_typed p -> more_block_pool_parse (more_block_pool_reconstruct p) = Ok p.
Proof. intros H. apply more_block_pool_rt. now apply more_blocks_typed_ok. Qed.
Print Assumptions C21_more_block_pool.
Definition ex_vars : variable_pool :=
  let v n t := (n, {| va_name := n; va_type := t |}) in [v (lit "b:0: ") VtString; v [] VtBoolean; v (lit "a") VtHashMap].
Definition ex_mbs : more_block_pool :=
  let m i s := (i, {| mb_id := i; mb_spec := s |}) in [m (lit "x") (lit " [do] it:now "); m [] []; m (lit " y") (lit ".")].
Example C21_example :
  pool_typed va_name va_name ex_vars /\ more_blocks_typed ex_mbs /\
  variable_pool_reconstruct ex_vars = lit "2:b:0: " ++ [10] ++ lit "0:" ++ [10] ++ lit "3:a" /\
  variable_pool_parse (variable_pool_reconstruct ex_vars) = Ok ex_vars /\
  more_block_pool_parse (more_block_pool_reconstruct ex_mbs) = Ok ex_mbs /\
  (* a name that ends in a space is cut when it is the last one *)
  variable_pool_parse (variable_pool_reconstruct [(lit "a ", {| va_name := lit "a "; va_type := VtString |})]) =
    Ok [(lit "a", {| va_name := lit "a"; va_type := VtString |})].
Proof.
  split; [|split; [|vm_compute; auto]].
  - split; [|split].
    + repeat constructor; cbn; intuition discriminate.
    + repeat constructor; cbn; intuition discriminate.
    + intros r k x s c E L. assert (x = {| va_name := lit "a"; va_type := VtHashMap |}) as ->.
      { unfold ex_vars, ex_mbs in E. cbv beta zeta in E. destruct r as [|a [|b [|d [|e r]]]]; cbn [app] in E; congruence. }
      cbn in L. destruct s as [|a [|b s]]; cbn in L; [injection L as <-; reflexivity|discriminate|discriminate].
  - split; [split; [|split]|split].
    + repeat constructor; cbn; intuition discriminate.
    + repeat constructor; cbn; intuition discriminate.
    + intros r k x s c E L. assert (x = {| mb_id := lit " y"; mb_spec := lit "." |}) as ->.
      { unfold ex_vars, ex_mbs in E. cbv beta zeta in E. destruct r as [|a [|b [|d [|e r]]]]; cbn [app] in E; congruence. }
      cbn in L. destruct s as [|a [|b s]]; cbn in L; [injection L as <-; reflexivity|discriminate|discriminate].
    + repeat constructor; cbn; intuition discriminate.
    + intros k x r c n E Ek. unfold ex_mbs in E. injection E as E1 _ _. rewrite <- E1 in Ek. cbn in Ek. injection Ek as <- _. reflexivity.
Qed.

(** C23. Whatever pool text parses: its lines up to the first blank one were read one by one, and the pool has
    exactly one entry for each name that occurs, under that name: the last one with it. *)
Definition last_wins {E A} (parse : str -> res E A) (name : A -> str) (s : str) (p : smap A) : Prop :=
  exists used rest xs, split_on 10 s = used ++ rest /\ (rest = [] \/ exists r, rest = [] :: r) /\ ~ In [] used /\
    Forall2 (fun l x => parse l = Ok x) used xs /\
    NoDup (map fst p) /\ (forall k v, In (k, v) p <-> is_last (fun x => name x = k) xs v).
Lemma own_last_wins {E A} (parse : str -> res E A) (name : A -> str) s used tail rest xs :
  split_on NL s = used ++ tail -> sec_end tail rest -> ~ In [] used -> Forall2 (fun l x => parse l = Ok x) used xs ->
  last_wins parse name s (own_collect name xs).
Proof.
  intros E1 T N F. exists used, tail, xs. split; [exact E1|]. split; [destruct T as [[-> _]| ->]; eauto|]. split; [auto|]. split; [auto|].
  split; [apply own_collect_nodup|]. intros k v. rewrite <- own_collect_get. split; [apply sget_in, own_collect_nodup|apply sget_some_in].
Qed.
Theorem C23_variables s p : variable_pool_parse s = Ok p -> last_wins variable_parse va_name s p.
Proof.
  unfold variable_pool_parse, variable_pool_parse_iter. destruct (pool_loop _ _ _ _ _) as [[r rest]| |] eqn:E; try discriminate. intros [= <-].
  apply pool_loop_inv in E as (used & tail & xs & E1 & T & N & F & ->). eapply own_last_wins; eauto.
Qed.
Print Assumptions C23_variables.
Theorem C23_list_variables s p : list_variable_pool_parse s = Ok p -> last_wins list_variable_parse lv_name s p.
Proof.
  unfold list_variable_pool_parse, list_variable_pool_parse_iter. destruct (pool_loop _ _ _ _ _) as [[r rest]| |] eqn:E; try discriminate. intros [= <-].
  apply pool_loop_inv in E as (used & tail & xs & E1 & T & N & F & ->). eapply own_last_wins; eauto.
Qed.
Print Assumptions C23_list_variables.
Theorem C23_more_blocks s p : more_block_pool_parse s = Ok p -> last_wins more_block_parse mb_id s p.
Proof.
  unfold more_block_pool_parse, more_block_pool_parse_iter. destruct (pool_loop _ _ _ _ _) as [[r rest]| |] eqn:E; try discriminate. cbn [bind rmap fst]. intros [= <-].
  apply pool_loop_inv in E as (used & tail & xs & E1 & T & N & F & ->). rewrite fold_vpush. cbn [app]. eapply own_last_wins; eauto.
Qed.
Print Assumptions C23_more_blocks.
Example C23_example :
  variable_pool_parse (lit "0:a" ++ [10] ++ lit "1:b" ++ [10] ++ lit "3:a" ++ [10; 10] ++ lit "junk") =
    Ok [(lit "b", {| va_name := lit "b"; va_type := VtInteger |}); (lit "a", {| va_name := lit "a"; va_type := VtHashMap |})] /\
  more_block_pool_parse (lit "x:1" ++ [10] ++ lit "x:2") = Ok [(lit "x", {| mb_id := lit "x"; mb_spec := lit "2" |})].
Proof. vm_compute. auto. Qed.

(** C22. The logics a program can hold and the format can name: screens under their own distinct names;
    names on one line and without ".java_"; container names that do not make a header look like a pool header. *)
Definition one_line_name (n : str) : Prop := ~ In 10 n /\ forall a b, n <> a ++ lit ".java_" ++ b.
Definition container_name (c : str) : Prop :=
  one_line_name c /\
  (forall s a, In s [lit "java_var"; lit "java_list"; lit "java_components"; lit "java_events"; lit "java_func"] -> lit "java_" ++ c <> a ++ s).
Definition screen_typed (x : screen_logic) : Prop :=
  one_line_name (sl_name x) /\
  (forall p, sl_variables x = Some p -> pool_typed va_name va_name p) /\
  (forall p, sl_list_variables x = Some p -> pool_typed lv_name lv_name p) /\
  (forall p, sl_components x = Some p -> Forall component_typed p) /\
  (forall p, sl_events x = Some p -> Forall event_typed p) /\
  (forall p, sl_more_blocks x = Some p -> more_blocks_typed p) /\
  NoDup (map fst (sl_block_containers x)) /\
  Forall (fun kv => container_name (fst kv) /\ Forall block_typed (snd kv)) (sl_block_containers x) /\
  (* an empty container at the very end has a name that does not end in white space *)
  (forall r c a w, sl_block_containers x = r ++ [(c, [])] -> c = a ++ [w] -> is_ws w = false).
Definition logic_typed (l : logic) : Prop :=
  NoDup (map fst l) /\ Forall (fun kv => fst kv = sl_name (snd kv) /\ screen_typed (snd kv)) l.
(** every screen has some pool or container *)
Definition nonempty_screens (l : logic) : Prop :=
  Forall (fun x => sl_variables x <> None \/ sl_list_variables x <> None \/ sl_components x <> None \/ sl_events x <> None \/
                   sl_more_blocks x <> None \/ sl_block_containers x <> []) (map snd l).
(** the screens with block containers come before those without *)
Definition containers_first (l : logic) : Prop :=
  exists a b, l = a ++ b /\ Forall (fun kv => sl_block_containers (snd kv) <> []) a /\ Forall (fun kv => sl_block_containers (snd kv) = []) b.

Lemma screen_typed_ok x : screen_typed x -> screen_ok x /\ NoDup (map fst (sl_block_containers x)).
Proof.
  intros (N & V & L & C & E & M & D & B & W). split; [|auto]. split.
  - rewrite !Forall_app. unfold ss_var, ss_list, ss_comp, ss_ev, ss_mb, os.
    repeat split; match goal with |- context [match ?o with _ => _ end] => destruct o as [p|]; constructor; auto end; (split; [exact N|]).
    + apply pool_typed_split. auto.
    + apply pool_typed_split. auto.
    + eapply Forall_impl; [apply component_typed_ok|auto].
    + eapply Forall_impl; [apply event_typed_ok|auto].
    + apply more_blocks_typed_ok. auto.
  - split.
    + unfold ss_blk. apply Forall_map. eapply Forall_impl; [|exact B]. intros [c b] [Hc Hb]. cbn [fst snd] in *. split; [exact N|]. split.
      * destruct Hc as [[Hc1 Hc2] Hc3]. split; [exact Hc1|split; [exact Hc2|]]. intros r a Hr. now apply Hc3.
      * eapply Forall_impl; [apply block_typed_ok|exact Hb].
    + intros r s Es. unfold ss_blk in Es. destruct (sl_block_containers x) as [|kv cs _] eqn:EC using rev_ind; [destruct r; discriminate|].
      rewrite map_app in Es. cbn [map] in Es. apply app_inj_tail in Es as [_ <-]. destruct kv as [c b]. cbn [fst snd s_edge].
      destruct b as [|b0 b]; [right|left; discriminate]. intros a y Ea. eapply W; [reflexivity|exact Ea].
Qed.
Lemma logic_typed_ok l : logic_typed l -> logic_ok l.
Proof.
  intros [N F]. split; [exact N|]. eapply Forall_impl; [|exact F]. cbn. intros kv [E T]. apply screen_typed_ok in T. tauto.
Qed.
Lemma nonempty_sects l : nonempty_screens l <-> Forall (fun x => screen_sects x <> []) (map snd l).
Proof.
  unfold nonempty_screens. assert (K : forall x, (sl_variables x <> None \/ sl_list_variables x <> None \/ sl_components x <> None \/ sl_events x <> None \/
                   sl_more_blocks x <> None \/ sl_block_containers x <> []) <-> screen_sects x <> []).
  { intros x. unfold screen_sects, ss_var, ss_list, ss_comp, ss_ev, ss_mb, os.
    destruct (sl_variables x), (sl_list_variables x), (sl_components x), (sl_events x), (sl_more_blocks x); cbn [app];
    try (split; [discriminate|intros _; repeat (first [left; discriminate|right])]; fail).
    destruct (sl_block_containers x) eqn:E; [|split; [intros _|auto 7; intros _; right; right; right; right; right; discriminate]].
    - split; [intuition congruence|]. intros H. exfalso. apply H. now apply ss_blk_nil.
    - intros Z. apply ss_blk_nil in Z. congruence. }
  split; intros H; (eapply Forall_impl; [|exact H]); intros x; apply K.
Qed.
Lemma containers_first_blk l : containers_first l <-> blk_first (map snd l).
Proof.
  split.
  - intros (a & b & -> & A & B). exists (map snd a), (map snd b). rewrite map_app. split; [auto|]. split; apply Forall_map; auto.
  - intros (a & b & E & A & B). apply map_eq_app in E as (a' & b' & -> & <- & <-). exists a', b'. split; [auto|]. now rewrite Forall_map in A, B.
Qed.
(** The full claim has neither of the two conditions; it holds exactly with them, for both possible behaviours of
    [LinkedHashMap::entry] (see [entry_update]). Reading never fails. *)
Theorem C22_roundtrip_partial mv l : logic_typed l -> nonempty_screens l -> containers_first l ->
  exists r, logic_parse mv (logic_reconstruct l) = Ok r /\ Permutation r l.
Proof.
  intros T N C. apply logic_same; [now apply logic_typed_ok|now apply containers_first_blk|now apply nonempty_sects].
Qed.
Print Assumptions C22_roundtrip_partial.
Theorem C22_exact mv l : logic_typed l ->
  exists r, logic_parse mv (logic_reconstruct l) = Ok r /\ (Permutation r l <-> nonempty_screens l /\ containers_first l).
Proof.
  intros T. apply logic_typed_ok in T as OK. exists (read_back mv l). destruct (logic_names l OK) as (_ & _ & F).
  assert (R : logic_parse mv (logic_reconstruct l) = Ok (read_back mv l)) by now apply logic_reparse. split; [exact R|]. split.
  - intros P. destruct (read_back_needs mv l OK P) as [A B]. split; [now apply nonempty_sects|now apply containers_first_blk].
  - intros [A B]. destruct (C22_roundtrip_partial mv l T A B) as (r & R2 & P). congruence.
Qed.
Print Assumptions C22_exact.
(** The order of the screens, needed for equality of the ordered maps: kept when every screen has a container and
    re-entering an existing key moves it to the back (as [hashlink] does); otherwise every screen needs variables, too. *)
Theorem C22_order l : logic_typed l -> Forall (fun kv => sl_block_containers (snd kv) <> []) l ->
  logic_parse true (logic_reconstruct l) = Ok l /\
  (Forall (fun kv => sl_variables (snd kv) <> None) l -> logic_parse false (logic_reconstruct l) = Ok l).
Proof.
  intros T C. apply logic_typed_ok in T as OK. split; [|intros V].
  - apply logic_order_true; auto. now apply Forall_map.
  - apply logic_order_false; auto; now apply Forall_map.
Qed.
Print Assumptions C22_order.
(** a screen without containers hides the containers of every later screen *)
Theorem C22_refuted mv l pre y mid z post : logic_typed l -> l = pre ++ y :: mid ++ z :: post ->
  sl_block_containers (snd y) = [] -> sl_variables (snd y) <> None -> sl_block_containers (snd z) <> [] ->
  exists r, logic_parse mv (logic_reconstruct l) = Ok r /\
    match sget (fst z) r with Some x => sl_block_containers x = [] | None => True end.
Proof.
  intros T E Hy Hv Hz. apply logic_typed_ok in T as OK. exists (read_back mv l). destruct (logic_names l OK) as (_ & _ & F).
  split; [now apply logic_reparse|]. assert (K : fst z = sl_name (snd z)).
  { destruct T as [_ T]. rewrite Forall_forall in T. apply (T z). rewrite E. apply in_or_app. right. right. apply in_or_app. right. now left. }
  rewrite K. apply (logic_gap mv l (map snd pre) (snd y) (map snd mid) (snd z) (map snd post)); auto.
  - rewrite E, map_app. cbn [map]. rewrite map_app. reflexivity.
  - left. intros Z. unfold pool_sects in Z. apply app_eq_nil in Z as [Z _]. destruct (sl_variables (snd y)) as [p|] eqn:Ev; [|congruence].
    assert (I : In (SVar (sl_name (snd y)) p) (flat_map ss_var (map snd l))).
    { apply in_flat_map. exists (snd y). split; [apply in_map; rewrite E; apply in_or_app; right; now left|]. unfold ss_var. rewrite Ev. now left. }
    rewrite Z in I. destruct I.
Qed.
Print Assumptions C22_refuted.
(** What is lost in general: the containers of every screen from the first one without any on, and the screens without
    any section. Some pool must be there, or the first screen must have a container: blank text at the start of the file
    is skipped. *)
Definition without_containers (x : screen_logic) : screen_logic :=
  {| sl_name := sl_name x; sl_block_containers := []; sl_variables := sl_variables x; sl_list_variables := sl_list_variables x;
     sl_components := sl_components x; sl_events := sl_events x; sl_more_blocks := sl_more_blocks x |}.
Definition has_pool (x : screen_logic) : bool :=
  match sl_variables x, sl_list_variables x, sl_components x, sl_events x, sl_more_blocks x with None, None, None, None, None => false | _, _, _, _, _ => true end.
Definition has_section (x : screen_logic) : bool := has_pool x || match sl_block_containers x with [] => false | _ => true end.
Lemma has_section_sect x : has_section x = has_sect x.
Proof.
  unfold has_section, has_pool, has_sect, screen_sects, ss_var, ss_list, ss_comp, ss_ev, ss_mb, ss_blk, os.
  destruct (sl_variables x), (sl_list_variables x), (sl_components x), (sl_events x), (sl_more_blocks x), (sl_block_containers x); reflexivity.
Qed.
Theorem C22_lost mv l a b : logic_typed l -> l = a ++ b -> Forall (fun kv => sl_block_containers (snd kv) <> []) a ->
  (forall y r, b = y :: r -> sl_block_containers (snd y) = []) -> (exists kv, In kv l /\ has_pool (snd kv) = true) \/ a <> [] ->
  exists r, logic_parse mv (logic_reconstruct l) = Ok r /\
    Permutation r (filter (fun kv => has_section (snd kv)) (a ++ map (fun kv => (fst kv, without_containers (snd kv))) b)).
Proof.
  intros T E A B D. apply logic_typed_ok in T as OK. rewrite filter_ext with (g := fun kv => has_sect (snd kv)) by (intros; apply has_section_sect).
  apply (logic_cut mv l a b OK E A).
  - destruct b as [|y r]; [now left|right]. exists y, r. split; [reflexivity|]. now apply (B y r).
  - destruct D as [(kv & I & P)|D]; [left|now right]. intros Z. assert (K : forall h : screen_logic -> list sect, flat_map h (map snd l) = [] -> h (snd kv) = []).
    { intros h Hh. destruct (h (snd kv)) as [|s r] eqn:Ey; auto. exfalso. assert (In s (flat_map h (map snd l))) as Hi.
      { apply in_flat_map. exists (snd kv). split; [now apply in_map|]. rewrite Ey. now left. }
      rewrite Hh in Hi. destruct Hi. }
    unfold pool_sects in Z. apply app_eq_nil in Z as [Z1 Z]. apply app_eq_nil in Z as [Z2 Z]. apply app_eq_nil in Z as [Z3 Z]. apply app_eq_nil in Z as [Z4 Z5].
    apply K in Z1, Z2, Z3, Z4, Z5. unfold has_pool in P. unfold ss_var, ss_list, ss_comp, ss_ev, ss_mb, os in *.
    destruct (sl_variables (snd kv)), (sl_list_variables (snd kv)), (sl_components (snd kv)), (sl_events (snd kv)), (sl_more_blocks (snd kv)); discriminate.
Qed.
Print Assumptions C22_lost.
Definition ex_screen (n : str) (cs : smap block_container) : str * screen_logic :=
  (n, {| sl_name := n; sl_block_containers := cs; sl_variables := Some ex_vars; sl_list_variables := None;
         sl_components := Some [component_new_empty (lit "t") 5]; sl_events := Some []; sl_more_blocks := Some ex_mbs |}).
Definition ex_con : smap block_container := [(lit "onCreate_initializeLogic", [ex_block (lit "10") (-1)]); (lit "b_onClick", [])].
Example C22_example :
  (* with containers: everything back, in order *)
  logic_parse true (logic_reconstruct [ex_screen (lit "B") ex_con; ex_screen (lit "A") ex_con]) =
    Ok [ex_screen (lit "B") ex_con; ex_screen (lit "A") ex_con] /\
  (* a screen without containers in front: the containers of the other are lost *)
  logic_parse true (logic_reconstruct [ex_screen (lit "B") []; ex_screen (lit "A") ex_con]) =
    Ok [ex_screen (lit "B") []; ex_screen (lit "A") []] /\
  (* behind: all there, but not in the same order *)
  logic_parse true (logic_reconstruct [ex_screen (lit "A") ex_con; ex_screen (lit "B") []]) =
    Ok [ex_screen (lit "B") []; ex_screen (lit "A") ex_con].
Proof. vm_compute. auto. Qed.
(** the hypotheses of [C22_order] are met by that first example *)
(** The second of three screens has no container: the third one's are lost, the first one's are kept. *)
Example C22_lost_example :
  let l := [ex_screen (lit "A") ex_con; ex_screen (lit "B") []; ex_screen (lit "C") ex_con] in
  (exists r, logic_parse true (logic_reconstruct l) = Ok r /\
     map (fun kv => (fst kv, sl_block_containers (snd kv))) r = [(lit "B", []); (lit "C", []); (lit "A", ex_con)]) /\
  filter (fun kv => has_section (snd kv)) [ex_screen (lit "A") ex_con; ex_screen (lit "B") []; ex_screen (lit "C") []] =
    [ex_screen (lit "A") ex_con; ex_screen (lit "B") []; ex_screen (lit "C") []].
Proof. split; [eexists; split; [vm_compute; reflexivity|reflexivity]|reflexivity]. Qed.
Example C22_typed : logic_typed [ex_screen (lit "B") ex_con; ex_screen (lit "A") ex_con].
Proof.
  split; [repeat constructor; cbn; intuition discriminate|]. destruct C21_example as (V & M & _).
  assert (S : forall n, (length n < 6)%nat -> ~ In 10 n -> screen_typed (snd (ex_screen n ex_con))).
  { intros n Hn Hi. split; [split; [exact Hi|intros a b E; apply (f_equal (@length N)) in E; rewrite !app_length in E; cbn in E; lia]|].
    split; [intros p [= <-]; exact V|]. split; [discriminate|]. split; [intros p [= <-]; repeat constructor|]. split; [intros p [= <-]; constructor|].
    split; [intros p [= <-]; exact M|]. split; [repeat constructor; cbn; intuition discriminate|]. split.
    - assert (D : forall c : str, ~ In 46 c -> forall a b, c <> a ++ lit ".java_" ++ b).
      { intros c Hc a b E. apply Hc. rewrite E. apply in_or_app. right. now left. }
      assert (R : forall c : str, last c 0 = 99 \/ last c 0 = 107 -> c <> [] -> (forall s a, In s [lit "java_var"; lit "java_list"; lit "java_components"; lit "java_events"; lit "java_func"] -> lit "java_" ++ c <> a ++ s \/ (s = lit "java_func"))).
      { intros c Hc Hn' s a Hs. destruct Hs as [<-|[<-|[<-|[<-|[<-|[]]]]]]; auto; left; intros E; apply (f_equal (fun l => last l 0)) in E;
        rewrite !last_app_ne in E by (auto; discriminate); cbn in E; rewrite E in Hc; destruct Hc; discriminate. }
      cbn [snd ex_screen sl_block_containers]. unfold ex_con. constructor; [|constructor; [|constructor]].
      + cbn [fst snd]. split; [split; [split; [cbn; intuition discriminate|apply D; cbn; intuition discriminate]|]|].
        * intros s a Hs. destruct (R (lit "onCreate_initializeLogic") (or_introl eq_refl) ltac:(discriminate) s a Hs) as [X|X]; auto. subst s. intros E.
          apply (f_equal (fun l => nth 2 (rev l) 0)) in E. rewrite !rev_app_distr in E. cbn in E. discriminate.
        * repeat constructor; cbn; lia.
      + cbn [fst snd]. split; [split; [split; [cbn; intuition discriminate|apply D; cbn; intuition discriminate]|]|constructor].
        intros s a Hs. destruct (R (lit "b_onClick") (or_intror eq_refl) ltac:(discriminate) s a Hs) as [X|X]; auto. subst s. intros E.
        apply (f_equal (fun l => nth 0 (rev l) 0)) in E. rewrite !rev_app_distr in E. cbn in E. discriminate.
    - intros r c a w E Ew. assert (c = lit "b_onClick") as ->.
      { cbn [snd ex_screen sl_block_containers] in E. unfold ex_con in E. destruct r as [|x [|y [|z r]]]; cbn [app] in E; congruence. }
      assert (w = 107) as ->; [|reflexivity]. apply (f_equal (fun l => last l 0)) in Ew. rewrite last_last in Ew. cbn in Ew. congruence. }
  constructor; [|constructor; [|constructor]]; (split; [reflexivity|apply S; [cbn; lia|cbn; intuition discriminate]]).
Qed.
