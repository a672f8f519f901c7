(** Property C102: [parse_iter] of the pools and of a layout, on any iterator of lines. *)
From Verif Require Import Base Str M_View M_Logic M_Iter SpecLines SpecReading SpecIter LogicProofs IterProofs.
Local Open Scope N_scope.

Theorem C102_variables : reads_section variable_parse (pool_read variable_parse va_name) variable_pool_iter.
Proof.
  apply (iter_reads variable_parse ins_variable []); [apply variable_nopanic|]. intros body m. unfold pool_read.
  split; intros (xs & L & ->); exists xs; (split; [exact L|]); [symmetry|]; exact (fold_own va_name xs).
Qed.
Print Assumptions C102_variables.
Theorem C102_list_variables : reads_section list_variable_parse (pool_read list_variable_parse lv_name) list_variable_pool_iter.
Proof.
  apply (iter_reads list_variable_parse ins_list_variable []); [apply list_variable_nopanic|]. intros body m. unfold pool_read.
  split; intros (xs & L & ->); exists xs; (split; [exact L|]); [symmetry|]; exact (fold_own lv_name xs).
Qed.
Print Assumptions C102_list_variables.
Lemma pushed {E A} (p : str -> res E A) body m : lines_read p body m <-> exists xs, lines_read p body xs /\ m = fold_left (fun a x => vpush x a) xs [].
Proof.
  split.
  - intros L. exists m. split; [exact L|]. now rewrite fold_vpush.
  - intros (xs & L & ->). now rewrite fold_vpush.
Qed.
Theorem C102_components : reads_section component_parse (lines_read component_parse) component_pool_iter.
Proof. apply (iter_reads component_parse vpush []); [intros s; apply ok_or_nopanic|apply pushed]. Qed.
Print Assumptions C102_components.
Theorem C102_events : reads_section event_parse (lines_read event_parse) event_pool_iter.
Proof. apply (iter_reads event_parse vpush []); [intros s; apply ok_or_nopanic|apply pushed]. Qed.
Print Assumptions C102_events.
Theorem C102_more_blocks : reads_section more_block_parse (pool_read more_block_parse mb_id) more_block_pool_iter.
Proof.
  intros lines rest. destruct (iter_reads more_block_parse vpush [] (lines_read more_block_parse) more_block_nopanic (pushed more_block_parse) lines rest) as (H1 & H2 & H3).
  unfold more_block_pool_iter. destruct (pool_iter more_block_parse vpush lines 0 []) as [r rest'] eqn:Q. split; [|split].
  - intros m. destruct r as [v|e|]; cbn [rmap].
    + split.
      * intros [= <- <-]. destruct (proj1 (H1 v) eq_refl) as (body & S' & L). exists body. split; [exact S'|]. exists v. split; [exact L|]. exact (fold_own mb_id v).
      * intros (body & S' & xs & L & ->). assert (X : (Ok v, rest') = (Ok xs, rest)) by (apply H1; eauto). injection X as -> ->. f_equal. f_equal. exact (fold_own mb_id xs).
    + split; [discriminate|]. intros (body & S' & xs & L & ->). assert (X : (Err e, rest') = (Ok xs, rest)) by (apply H1; eauto). discriminate.
    + split; [discriminate|]. intros (body & S' & xs & L & ->). assert (X : (Panic, rest') = (Ok xs, rest)) by (apply H1; eauto). discriminate.
  - intros e. rewrite <- H2. destruct r; cbn [rmap]; split; intros [= -> ->]; try reflexivity; congruence.
  - intros X. apply H3. destruct r; cbn [rmap] in X; congruence.
Qed.
Print Assumptions C102_more_blocks.
Theorem C102_layout lines rest :
  (forall m, layout_iter lines [] 0 = (Ok m, rest) <->
     exists body, one_section lines body rest /\ Forall2 (fun l x => view_line_parse l = Some x) body m) /\
  (forall e, layout_iter lines [] 0 = (Err e, rest) <->
     exists good bad xs, stops_at view_line_parse lines good bad rest /\ Forall2 (fun l x => view_line_parse l = Some x) good xs /\
       e = {| lpe_view_before := last_of xs; lpe_content := bad; lpe_line := N.of_nat (length good) |}) /\
  layout_iter lines [] 0 <> (Panic, rest).
Proof.
  split; [|split].
  - intros m. rewrite layout_iter_ok. cbn [app]. split; [intros (body & xs & S' & L & ->); eauto|intros (body & S' & L); eauto].
  - intros e. rewrite layout_iter_err. reflexivity.
  - intros X. pose proof (layout_as_pool lines [] 0) as Y. destruct (pool_iter view_res vpush lines 0 []) as [[|?|] ?]; [congruence|destruct Y; congruence|exact Y].
Qed.
Print Assumptions C102_layout.

(** The functions that the data files are read with (M_Logic.v, M_View.v) are these. *)
Definition same_outcome {E M} (a : res E M * list str) (b : res E (M * list str)) : Prop :=
  match a with (Ok m, rest) => b = Ok (m, rest) | (Err e, _) => b = Err e | (Panic, _) => b = Panic end.
Theorem C102_used lines :
  same_outcome (variable_pool_iter lines) (variable_pool_parse_iter lines) /\
  same_outcome (list_variable_pool_iter lines) (list_variable_pool_parse_iter lines) /\
  same_outcome (component_pool_iter lines) (component_pool_parse_iter lines) /\
  same_outcome (event_pool_iter lines) (event_pool_parse_iter lines) /\
  same_outcome (more_block_pool_iter lines) (more_block_pool_parse_iter lines) /\
  same_outcome (layout_iter lines [] 0) (rmap fst (layout_parse_iter lines [] 0)).
Proof.
  split; [|split; [|split; [|split; [|split]]]].
  - exact (pool_iter_loop variable_parse ins_variable lines 0 []).
  - exact (pool_iter_loop list_variable_parse ins_list_variable lines 0 []).
  - exact (pool_iter_loop component_parse vpush lines 0 []).
  - exact (pool_iter_loop event_parse vpush lines 0 []).
  - unfold more_block_pool_iter, more_block_pool_parse_iter. pose proof (pool_iter_loop more_block_parse vpush lines 0 []) as X.
    destruct (pool_iter more_block_parse vpush lines 0 []) as [[v|e|] rest]; cbn [rmap same_outcome]; rewrite X; reflexivity.
  - pose proof (layout_iter_loop lines [] 0) as X. destruct (layout_iter lines [] 0) as [[m|e|] rest]; cbn [same_outcome]; [destruct X as [c ->]|rewrite X|rewrite X]; reflexivity.
Qed.
Print Assumptions C102_used.

(** three calls on one iterator: a section, a section with a line that cannot be read, and what follows that line *)
Example C102_example :
  let lines := [lit "0:a"; lit "1:b"; lit "2:a"; []; lit "0:x"; lit "no"; lit "3:y"; []; lit "@end"] in
  let v n t := (n, {| va_name := n; va_type := t |}) in
  let l1 := snd (variable_pool_iter lines) in
  let l2 := snd (variable_pool_iter l1) in
  fst (variable_pool_iter lines) = Ok [v (lit "b") VtInteger; v (lit "a") VtString] /\
  fst (variable_pool_iter l1) = Err {| pe_count := 1; pe_content := lit "no"; pe_source := MalformedVariable (lit "no") |} /\
  variable_pool_iter l2 = (Ok [v (lit "y") VtHashMap], [lit "@end"]) /\
  component_pool_iter l2 = (Err {| pe_count := 0; pe_content := lit "3:y"; pe_source := tt |}, [[]; lit "@end"]) /\
  layout_iter [[]; []] [] 0 = (Ok [], [[]]).
Proof. vm_compute. repeat split; reflexivity. Qed.
