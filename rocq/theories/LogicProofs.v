(** Proofs about the records and pools of [M_Logic.v]. *)
From Coq Require Import Permutation.
From Verif Require Import Base Spec Str Dec Json JsonProofs Recs RecsProofs LinesProofs FileProofs M_Color ColorProofs M_Logic.
From Verif Require ResFilesProofs.

(** ** Records *)
Definition component_ok (x : component) : Prop := co_type x <= 255.
Definition event_ok (x : event) : Prop := ev_type x <= 255 /\ ev_target_type x <= 255.
Definition i32_ok (z : Z) : Prop := (-2147483648 <= z <= 2147483647)%Z.
Definition block_ok (x : block) : Prop :=
  cval (bl_color x) < 4294967296 /\ i32_ok (bl_next_block x) /\ i32_ok (bl_sub_stack1 x) /\ i32_ok (bl_sub_stack2 x).
Lemma e_component_wf x : wf_json (e_component x) = true.
Proof. unfold e_component. rewrite wf_e_obj. unfold component_fields. cbn [forallb snd]. rewrite !wf_e_int. reflexivity. Qed.
Lemma e_event_wf x : wf_json (e_event x) = true.
Proof. unfold e_event. rewrite wf_e_obj. unfold event_fields. cbn [forallb snd]. rewrite !wf_e_int. reflexivity. Qed.
Lemma e_block_wf x : wf_json (e_block x) = true.
Proof.
  unfold e_block. rewrite wf_e_obj. unfold block_fields. cbn [forallb snd]. unfold e_color. rewrite !wf_e_int.
  rewrite wf_arr by (intros; reflexivity). reflexivity.
Qed.
Lemma component_rt x : component_ok x -> component_parse (component_reconstruct x) = Ok x.
Proof.
  intros H. unfold component_parse, component_reconstruct. rewrite (from_to d_component e_component); [reflexivity|apply e_component_wf|].
  unfold d_component, e_component, component_fields, component_names. field_rt. rewrite d_u8_e by exact H. cbn [obind]. now destruct x.
Qed.
Lemma event_rt x : event_ok x -> event_parse (event_reconstruct x) = Ok x.
Proof.
  intros [H1 H2]. unfold event_parse, event_reconstruct. rewrite (from_to d_event e_event); [reflexivity|apply e_event_wf|].
  unfold d_event, e_event, event_fields, event_names. field_rt. rewrite !d_u8_e by auto. cbn [obind]. now destruct x.
Qed.
Lemma block_rt x : block_ok x -> block_parse (block_reconstruct x) = Ok x.
Proof.
  intros (H1 & H2 & H3 & H4). unfold block_parse, block_reconstruct. rewrite (from_to d_block e_block); [reflexivity|apply e_block_wf|].
  unfold d_block, e_block, block_fields, block_names. field_rt. rewrite d_color_e by auto. cbn [obind]. unfold d_i32.
  unfold i32_ok in *. rewrite !d_int_e_int by lia. cbn [obind]. rewrite (d_list_e d_str) by reflexivity. cbn [obind]. now destruct x.
Qed.
Lemma component_clean x : clean_line (component_reconstruct x).
Proof. eapply to_string_clean; [reflexivity|apply e_component_wf]. Qed.
Lemma event_clean x : clean_line (event_reconstruct x).
Proof. eapply to_string_clean; [reflexivity|apply e_event_wf]. Qed.
Lemma block_clean x : clean_line (block_reconstruct x).
Proof. eapply to_string_clean; [reflexivity|apply e_block_wf]. Qed.

Lemma variable_type_rt t : variable_type_of (variable_type_num t) = Some t. Proof. now destruct t. Qed.
Lemma variable_rt v : variable_parse (variable_reconstruct v) = Ok v.
Proof.
  unfold variable_parse, variable_reconstruct. change (lit ":") with [58]. cbn [app].
  rewrite split_once_char by (apply dec_of_N_notin; reflexivity). cbn [ok_or bind].
  rewrite parse_u8_dec by (destruct (va_type v); cbv; discriminate). cbn [ok_or bind]. rewrite variable_type_rt. now destruct v.
Qed.
Lemma list_variable_rt v : list_variable_parse (list_variable_reconstruct v) = Ok v.
Proof.
  unfold list_variable_parse, list_variable_reconstruct. change (lit ":") with [58]. cbn [app].
  rewrite split_once_char by (apply dec_of_N_notin; reflexivity). cbn [ok_or bind].
  rewrite parse_u8_dec by (destruct (lv_type v); cbv; discriminate). cbn [ok_or bind]. rewrite variable_type_rt. now destruct v.
Qed.
Lemma more_block_rt m : ~ In 58 (mb_id m) -> more_block_parse (more_block_reconstruct m) = Ok m.
Proof.
  intros H. unfold more_block_parse, more_block_reconstruct. change (lit ":") with [58]. cbn [app].
  rewrite split_once_char by auto. now destruct m.
Qed.

(** ** Pools *)
(** a list followed by the end of the input or by a blank line *)
Definition sec_end (tail rest : list str) : Prop := (tail = [] /\ rest = []) \/ tail = [] :: rest.
Lemma pool_loop_end {E A M} (p : str -> res E A) (ins : A -> M -> M) tail rest n acc : sec_end tail rest ->
  pool_loop p ins tail n acc = Ok (acc, rest).
Proof. intros [[-> ->]| ->]; reflexivity. Qed.
Lemma pool_loop_ok {E A M} (p : str -> res E A) (ins : A -> M -> M) (f : A -> str) xs tail rest n acc :
  Forall (fun x => f x <> [] /\ p (f x) = Ok x) xs -> sec_end tail rest ->
  pool_loop p ins (map f xs ++ tail) n acc = Ok (fold_left (fun m x => ins x m) xs acc, rest).
Proof.
  intros H T. revert n acc. induction H as [|x xs [Hn Hp] _ IH]; intros n acc; cbn [map app fold_left].
  - now apply pool_loop_end.
  - cbn [pool_loop]. rewrite Hp. destruct (f x); [congruence|]. cbn [map_err bind]. apply IH.
Qed.
Lemma fold_vpush {A} (xs acc : list A) : fold_left (fun m x => vpush x m) xs acc = acc ++ xs.
Proof.
  revert acc; induction xs as [|x xs IH]; intros acc; cbn [fold_left]; [now rewrite app_nil_r|]. rewrite IH. unfold vpush.
  now rewrite <- app_assoc.
Qed.
(** the lines read before the end of a section, and what is left *)
Lemma pool_loop_inv {E A M} (p : str -> res E A) (ins : A -> M -> M) lines n acc r rest :
  pool_loop p ins lines n acc = Ok (r, rest) ->
  exists used tail xs, lines = used ++ tail /\ sec_end tail rest /\ ~ In [] used /\ Forall2 (fun l x => p l = Ok x) used xs /\
    r = fold_left (fun m x => ins x m) xs acc.
Proof.
  revert n acc; induction lines as [|l lines IH]; intros n acc; cbn [pool_loop].
  - intros [= <- <-]. exists [], [], []. repeat split; auto. now left.
  - destruct l as [|c l].
    + intros [= <- <-]. exists [], ([] :: lines), []. repeat split; auto. now right.
    + destruct (p (c :: l)) as [a|e|] eqn:Ep; cbn [map_err bind]; try discriminate. intros H.
      apply IH in H as (used & tail & xs & -> & T & Hn & F & ->). exists ((c :: l) :: used), tail, (a :: xs).
      repeat split; auto. intros [H|H]; [discriminate|auto].
Qed.
Lemma pool_loop_nopanic {E A M} (p : str -> res E A) (ins : A -> M -> M) lines n acc : (forall s, p s <> Panic) ->
  pool_loop p ins lines n acc <> Panic.
Proof.
  intros H. revert n acc; induction lines as [|l lines IH]; intros n acc; cbn [pool_loop]; [discriminate|].
  destruct l as [|c l]; [discriminate|]. destruct (p (c :: l)) eqn:Ep; cbn [map_err bind]; [apply IH|discriminate|]. now apply H in Ep.
Qed.
(** the error names the first bad line *)
Lemma pool_loop_err {E A M} (p : str -> res E A) (ins : A -> M -> M) lines n acc e :
  pool_loop p ins lines n acc = Err e ->
  exists good l rest, lines = good ++ l :: rest /\ l <> [] /\ ~ In [] good /\ (forall g, In g good -> exists x, p g = Ok x) /\
    p l = Err (pe_source e) /\ pe_content e = l /\ pe_count e = n + N.of_nat (length good).
Proof.
  revert n acc; induction lines as [|l lines IH]; intros n acc; cbn [pool_loop]; [discriminate|].
  destruct l as [|c l]; [discriminate|]. destruct (p (c :: l)) as [a|e'|] eqn:Ep; cbn [map_err bind]; try discriminate.
  - intros H. apply IH in H as (good & l' & rest & -> & Hl & Hn & Hg & He & Hc & Hk). exists ((c :: l) :: good), l', rest.
    split; [reflexivity|]. repeat split; auto.
    + intros [H|H]; [discriminate|auto].
    + intros g [<-|Hi]; eauto.
    + rewrite Hk. cbn [length]. lia.
  - intros [= <-]. exists [], (c :: l), lines. cbn. repeat split; auto; try discriminate; try tauto. lia.
Qed.
Lemma variable_nopanic s : variable_parse s <> Panic.
Proof.
  unfold variable_parse. destruct (split_once (lit ":") s) as [[a b]|]; cbn [ok_or bind]; [|discriminate].
  destruct (parse_u8 a) as [n|]; cbn [ok_or bind]; [|discriminate]. destruct (variable_type_of n); discriminate.
Qed.
Lemma list_variable_nopanic s : list_variable_parse s <> Panic.
Proof.
  unfold list_variable_parse. destruct (split_once (lit ":") s) as [[a b]|]; cbn [ok_or bind]; [|discriminate].
  destruct (parse_u8 a) as [n|]; cbn [ok_or bind]; [|discriminate]. destruct (variable_type_of n); discriminate.
Qed.
Lemma more_block_nopanic s : more_block_parse s <> Panic.
Proof. unfold more_block_parse. destruct (split_once (lit ":") s) as [[a b]|]; cbn [ok_or bind]; discriminate. Qed.
Lemma ok_or_nopanic {E A} (e : E) (o : option A) : ok_or e o <> Panic.
Proof. destruct o; discriminate. Qed.
Lemma rmap_nopanic {E A B} (f : A -> B) (r : res E A) : r <> Panic -> rmap f r <> Panic.
Proof. destruct r; cbn; congruence. Qed.
Lemma map_err_nopanic {E F A} (f : E -> F) (r : res E A) : r <> Panic -> map_err f r <> Panic.
Proof. destruct r; cbn; congruence. Qed.
Lemma more_block_pool_iter_nopanic lines : more_block_pool_parse_iter lines <> Panic.
Proof.
  unfold more_block_pool_parse_iter. pose proof (pool_loop_nopanic more_block_parse vpush lines 0 [] more_block_nopanic) as H.
  destruct (pool_loop more_block_parse vpush lines 0 []) as [[v r]| |]; cbn [bind]; congruence.
Qed.

(** ** Repeated names: insertion by own name *)
Section Own.
  Context {A : Type} (name : A -> str).
  Definition own_collect (xs : list A) : smap A := fold_left (fun m x => sinsert (name x) x m) xs [].
  Lemma own_collect_snoc xs x : own_collect (xs ++ [x]) = sinsert (name x) x (own_collect xs).
  Proof. unfold own_collect. now rewrite fold_left_app. Qed.
  Lemma own_collect_nodup xs : NoDup (map fst (own_collect xs)).
  Proof.
    induction xs as [|x xs IH] using rev_ind; [constructor|]. rewrite own_collect_snoc. now apply sinsert_nodup.
  Qed.
  Lemma own_collect_own xs : Forall (fun kv => fst kv = name (snd kv)) (own_collect xs).
  Proof.
    induction xs as [|x xs IH] using rev_ind; [constructor|]. rewrite own_collect_snoc. unfold sinsert, linsert. apply Forall_app. split.
    - apply Forall_forall. intros kv Hk. rewrite Forall_forall in IH. apply IH. revert Hk. generalize (own_collect xs) as m. clear.
      induction m as [|[k v] m IHm]; cbn; [tauto|]. destruct (str_eqb (name x) k); cbn; [auto|]. intros [->|H]; auto.
    - constructor; [reflexivity|constructor].
  Qed.
  Lemma own_collect_get xs k v : sget k (own_collect xs) = Some v <-> is_last (fun x => name x = k) xs v.
  Proof.
    induction xs as [|x xs IH] using rev_ind.
    - split; [discriminate|]. intros ([|] & b & E & _); discriminate.
    - rewrite own_collect_snoc, ResFilesProofs.is_last_snoc by (destruct (str_eqb_spec (name x) k); auto).
      destruct (str_eqb_spec k (name x)) as [->|Hne].
      + rewrite sget_insert_same. split; [intros [= ->]; auto|]. intros [[_ ->]|[H _]]; [auto|congruence].
      + rewrite sget_insert_other by auto. rewrite IH. split; [intros H; right; split; auto; congruence|].
        intros [[H _]|[_ H]]; [congruence|auto].
  Qed.
  Lemma own_collect_id (m : smap A) : NoDup (map fst m) -> Forall (fun kv => fst kv = name (snd kv)) m -> own_collect (map snd m) = m.
  Proof.
    intros Hn Ho. rewrite <- (scollect_nodup m Hn) at 2. unfold own_collect, scollect, lcollect. fold (@sinsert A).
    generalize (@nil (str * A)) as acc. clear Hn. induction Ho as [|[k v] m H Ho IH]; intros acc; cbn [map fold_left fst snd]; [reflexivity|].
    cbn [fst snd] in H. subst k. apply IH.
  Qed.
End Own.

(** ** Texts of pools *)
Lemma trim_fold_lines {A} (f : A -> str) l : l = [] \/ edge_ok (join NL (map f l)) ->
  trim (fold_left (fun acc i => acc ++ [NL] ++ f i) l []) = join NL (map f l).
Proof.
  intros H. rewrite fold_pre. cbn [app]. destruct l as [|x l]; [reflexivity|]. destruct H as [H|H]; [discriminate|].
  rewrite concat_pre by discriminate. rewrite trim_ws_l by reflexivity. now apply trim_id.
Qed.
Lemma join_last (ls : list str) : ls <> [] -> last ls [] <> [] -> last (join NL ls) 0 = last (last ls []) 0.
Proof.
  intros Hn Hl. destruct ls as [|l ls _] using rev_ind; [congruence|]. rewrite last_last in *.
  destruct ls as [|a ls]; [reflexivity|]. rewrite join_app by discriminate. cbn [join].
  rewrite last_app_ne by discriminate. change (NL :: l) with ([NL] ++ l). now rewrite last_app_ne.
Qed.
Lemma edge_lines l ls : (match l with [] => False | c :: _ => is_ws c = false end) ->
  last (l :: ls) [] <> [] -> is_ws (last (last (l :: ls) []) 0) = false -> edge_ok (join NL (l :: ls)).
Proof.
  intros Hf Hl He. destruct l as [|c l]; [tauto|].
  assert (E : exists t, join NL ((c :: l) :: ls) = c :: t) by (destruct ls; eexists; reflexivity). destruct E as [t E].
  assert (L : last (join NL ((c :: l) :: ls)) 0 = last (last ((c :: l) :: ls) []) 0) by (apply join_last; [discriminate|auto]).
  rewrite E in *. split; auto. now rewrite L.
Qed.
(** ** Pools survive writing and reading *)
Lemma edge_map {A} (f : A -> str) (xs : list A) : xs <> [] ->
  (forall x, In x xs -> f x <> []) ->
  (forall x r, xs = x :: r -> match f x with [] => False | c :: _ => is_ws c = false end) ->
  (forall r x, xs = r ++ [x] -> is_ws (last (f x) 0) = false) -> edge_ok (join NL (map f xs)).
Proof.
  intros Hn Hne Hf Hl. destruct xs as [|x xs]; [congruence|]. cbn [map].
  destruct (exists_last Hn) as (r & y & E).
  assert (L : last (f x :: map f xs) [] = f y).
  { change (f x :: map f xs) with (map f (x :: xs)). rewrite E, map_app. cbn [map]. apply last_last. }
  apply edge_lines.
  - eapply Hf. reflexivity.
  - rewrite L. apply Hne. rewrite E. apply in_or_app. right. now left.
  - rewrite L. eapply Hl. exact E.
Qed.
Lemma pool_reader {E A M} (p : str -> res E A) (ins : A -> M -> M) (f : A -> str) xs acc :
  Forall (fun x => f x <> [] /\ ~ In NL (f x) /\ p (f x) = Ok x) xs ->
  pool_loop p ins (split_on NL (join NL (map f xs))) 0 acc = Ok (fold_left (fun m x => ins x m) xs acc, []).
Proof.
  intros H. destruct xs as [|x xs]; [reflexivity|].
  rewrite split_join; [|discriminate|].
  - rewrite <- (app_nil_r (map f (x :: xs))). apply pool_loop_ok.
    + eapply Forall_impl; [|exact H]. cbn. tauto.
    + left. auto.
  - apply Forall_map. eapply Forall_impl; [|exact H]. cbn. tauto.
Qed.
(** the name on the last line does not end in whitespace *)
Definition last_name_ok {A} (name : A -> str) (p : smap A) : Prop :=
  forall r k x a c, p = r ++ [(k, x)] -> name x = a ++ [c] -> is_ws c = false.
Definition own_map {A} (name : A -> str) (p : smap A) : Prop :=
  NoDup (map fst p) /\ Forall (fun kv => fst kv = name (snd kv)) p.
Lemma map_snd_snoc {A} (p : smap A) r x : map snd p = r ++ [x] -> exists r' k, p = r' ++ [(k, x)].
Proof.
  destruct p as [|[k y] p _] using rev_ind; [destruct r; discriminate|]. rewrite map_app. cbn [map snd].
  intros E. apply app_inj_tail in E as [_ ->]. eauto.
Qed.
Lemma last_colon (a n : str) : (forall b c, n = b ++ [c] -> is_ws c = false) -> is_ws (last (a ++ 58 :: n) 0) = false.
Proof.
  intros H. destruct n as [|c n _] using rev_ind; [now rewrite last_last|].
  change (58 :: n ++ [c]) with ((58 :: n) ++ [c]). rewrite app_assoc, last_last. eapply H. reflexivity.
Qed.
Definition variable_pool_ok (p : variable_pool) : Prop :=
  own_map va_name p /\ Forall (fun kv => ~ In NL (fst kv)) p /\ last_name_ok va_name p.
Lemma dec_head_ws n c r : dec_of_N n = c :: r -> is_ws c = false.
Proof.
  destruct (dec_of_N_head n) as (d & r' & -> & D & _). intros [= <- _]. apply is_digit_range in D. unfold is_ws.
  repeat (apply orb_false_iff; split); try apply andb_false_iff; try (apply N.eqb_neq; lia); try (left; apply N.leb_gt; lia); right; apply N.leb_gt; lia.
Qed.
Lemma variable_line_ok v : ~ In NL (va_name v) -> variable_reconstruct v <> [] /\ ~ In NL (variable_reconstruct v).
Proof.
  intros H. unfold variable_reconstruct. change (lit ":") with [58]. split.
  - destruct (dec_of_N _); discriminate.
  - rewrite !in_app_iff. intros [Hi|[[Hi|[]]|Hi]]; [revert Hi; apply dec_of_N_notin; reflexivity|discriminate|auto].
Qed.
Lemma own_vals {A} (name : A -> str) (p : smap A) (P : A -> str -> Prop) : own_map name p -> Forall (fun kv => P (snd kv) (fst kv)) p ->
  Forall (fun x => P x (name x)) (map snd p).
Proof.
  intros [_ H] F. apply Forall_map. rewrite Forall_forall in *. intros kv Hk. rewrite <- (H kv Hk). auto.
Qed.
Lemma variable_pool_text p : variable_pool_ok p -> variable_pool_reconstruct p = join NL (map variable_reconstruct (map snd p)).
Proof.
  intros (O & F & L). unfold variable_pool_reconstruct. apply trim_fold_lines.
  destruct p as [|kv p]; [now left|right]. set (q := kv :: p) in *.
  pose proof (own_vals va_name q (fun _ n => ~ In NL n) O F) as F'. rewrite Forall_forall in F'.
  apply edge_map.
  - discriminate.
  - intros x Hx. apply variable_line_ok. auto.
  - intros x r _. unfold variable_reconstruct. destruct (dec_of_N _) eqn:E; [now apply dec_of_N_nonnil in E|]. cbn [app]. eapply dec_head_ws; eauto.
  - intros r x E. unfold variable_reconstruct. apply last_colon. intros b c Eb. destruct (map_snd_snoc _ _ _ E) as (r' & k & E').
    eapply L; eauto.
Qed.
Lemma variable_pool_lines p : variable_pool_ok p ->
  Forall (fun x => variable_reconstruct x <> [] /\ ~ In NL (variable_reconstruct x) /\ variable_parse (variable_reconstruct x) = Ok x) (map snd p).
Proof.
  intros (O & F & L). eapply Forall_impl; [|exact (own_vals va_name p (fun _ n => ~ In NL n) O F)].
  intros x Hx. cbn in Hx. destruct (variable_line_ok x Hx). split; auto. split; auto. apply variable_rt.
Qed.
Lemma variable_pool_fold p : variable_pool_ok p -> fold_left (fun m x => ins_variable x m) (map snd p) [] = p.
Proof. intros ([O1 O2] & _ & _). exact (own_collect_id va_name p O1 O2). Qed.
Lemma variable_pool_rt p : variable_pool_ok p -> variable_pool_parse (variable_pool_reconstruct p) = Ok p.
Proof.
  intros H. rewrite variable_pool_text by auto. unfold variable_pool_parse, variable_pool_parse_iter.
  rewrite pool_reader by now apply variable_pool_lines. rewrite variable_pool_fold by auto. reflexivity.
Qed.
Definition list_variable_pool_ok (p : list_variable_pool) : Prop :=
  own_map lv_name p /\ Forall (fun kv => ~ In NL (fst kv)) p /\ last_name_ok lv_name p.
Lemma list_variable_line_ok v : ~ In NL (lv_name v) -> list_variable_reconstruct v <> [] /\ ~ In NL (list_variable_reconstruct v).
Proof.
  intros H. unfold list_variable_reconstruct. change (lit ":") with [58]. split.
  - destruct (dec_of_N _); discriminate.
  - rewrite !in_app_iff. intros [Hi|[[Hi|[]]|Hi]]; [revert Hi; apply dec_of_N_notin; reflexivity|discriminate|auto].
Qed.
Lemma list_variable_pool_text p : list_variable_pool_ok p -> list_variable_pool_reconstruct p = join NL (map list_variable_reconstruct (map snd p)).
Proof.
  intros (O & F & L). unfold list_variable_pool_reconstruct. apply trim_fold_lines.
  destruct p as [|kv p]; [now left|right]. set (q := kv :: p) in *.
  pose proof (own_vals lv_name q (fun _ n => ~ In NL n) O F) as F'. rewrite Forall_forall in F'.
  apply edge_map.
  - discriminate.
  - intros x Hx. apply list_variable_line_ok. auto.
  - intros x r _. unfold list_variable_reconstruct. destruct (dec_of_N _) eqn:E; [now apply dec_of_N_nonnil in E|]. cbn [app]. eapply dec_head_ws; eauto.
  - intros r x E. unfold list_variable_reconstruct. apply last_colon. intros b c Eb. destruct (map_snd_snoc _ _ _ E) as (r' & k & E').
    eapply L; eauto.
Qed.
Lemma list_variable_pool_lines p : list_variable_pool_ok p ->
  Forall (fun x => list_variable_reconstruct x <> [] /\ ~ In NL (list_variable_reconstruct x) /\ list_variable_parse (list_variable_reconstruct x) = Ok x) (map snd p).
Proof.
  intros (O & F & L). eapply Forall_impl; [|exact (own_vals lv_name p (fun _ n => ~ In NL n) O F)].
  intros x Hx. cbn in Hx. destruct (list_variable_line_ok x Hx). split; auto. split; auto. apply list_variable_rt.
Qed.
Lemma list_variable_pool_fold p : list_variable_pool_ok p -> fold_left (fun m x => ins_list_variable x m) (map snd p) [] = p.
Proof. intros ([O1 O2] & _ & _). exact (own_collect_id lv_name p O1 O2). Qed.
Lemma list_variable_pool_rt p : list_variable_pool_ok p -> list_variable_pool_parse (list_variable_pool_reconstruct p) = Ok p.
Proof.
  intros H. rewrite list_variable_pool_text by auto. unfold list_variable_pool_parse, list_variable_pool_parse_iter.
  rewrite pool_reader by now apply list_variable_pool_lines. rewrite list_variable_pool_fold by auto. reflexivity.
Qed.
Definition more_block_pool_ok (p : more_block_pool) : Prop :=
  own_map mb_id p /\ Forall (fun kv => ~ In NL (fst kv) /\ ~ In 58 (fst kv) /\ ~ In NL (mb_spec (snd kv))) p /\
  last_name_ok mb_spec p /\ (forall k x r c n, p = (k, x) :: r -> mb_id x = c :: n -> is_ws c = false).
Lemma more_block_line_ok m : ~ In NL (mb_id m) -> ~ In NL (mb_spec m) -> more_block_reconstruct m <> [] /\ ~ In NL (more_block_reconstruct m).
Proof.
  intros H1 H2. unfold more_block_reconstruct. change (lit ":") with [58]. split.
  - destruct (mb_id m); discriminate.
  - rewrite !in_app_iff. intros [Hi|[[Hi|[]]|Hi]]; [auto|discriminate|auto].
Qed.
Lemma more_block_pool_lines p : more_block_pool_ok p ->
  Forall (fun x => more_block_reconstruct x <> [] /\ ~ In NL (more_block_reconstruct x) /\ more_block_parse (more_block_reconstruct x) = Ok x) (map snd p).
Proof.
  intros (O & F & L & _). eapply Forall_impl; [|exact (own_vals mb_id p (fun x n => ~ In NL n /\ ~ In 58 n /\ ~ In NL (mb_spec x)) O F)].
  intros x (Ha & Hb & Hc). destruct (more_block_line_ok x Ha Hc). split; auto. split; auto. now apply more_block_rt.
Qed.
Lemma more_block_pool_text p : more_block_pool_ok p -> more_block_pool_reconstruct p = join NL (map more_block_reconstruct (map snd p)).
Proof.
  intros H. pose proof (more_block_pool_lines p H) as F'. destruct H as (O & F & L & B). unfold more_block_pool_reconstruct. apply trim_fold_lines.
  destruct p as [|[k0 x0] p]; [now left|right]. set (q := (k0, x0) :: p) in *. rewrite Forall_forall in F'.
  apply edge_map.
  - discriminate.
  - intros x Hx. apply (F' x Hx).
  - intros x r [= <- _]. unfold more_block_reconstruct. destruct (mb_id x0) eqn:E; [reflexivity|]. cbn [app]. eapply B; [reflexivity|exact E].
  - intros r x E. unfold more_block_reconstruct. apply last_colon. intros b c Eb. destruct (map_snd_snoc _ _ _ E) as (r' & k & E').
    eapply L; eauto.
Qed.
Lemma more_block_pool_rt p : more_block_pool_ok p -> more_block_pool_parse (more_block_pool_reconstruct p) = Ok p.
Proof.
  intros H. rewrite more_block_pool_text by auto. unfold more_block_pool_parse, more_block_pool_parse_iter.
  rewrite pool_reader by now apply more_block_pool_lines. rewrite fold_vpush. cbn [app bind rmap fst].
  destruct H as ([O1 O2] & _). f_equal. exact (own_collect_id mb_id p O1 O2).
Qed.
Lemma component_pool_text p : component_pool_reconstruct p = join NL (map component_reconstruct p).
Proof.
  unfold component_pool_reconstruct. rewrite fold_post. cbn [app]. destruct p as [|x p]; [reflexivity|].
  rewrite concat_post by discriminate. rewrite trim_end_snoc_ws by reflexivity. apply trim_end_nonws.
  assert (E : edge_ok (join NL (map component_reconstruct (x :: p)))).
  { apply join_edge; [discriminate|]. apply Forall_map, Forall_forall. intros y _. apply component_clean. }
  destruct (join NL (map component_reconstruct (x :: p))); [reflexivity|]. apply E.
Qed.
Lemma event_pool_text p : event_pool_reconstruct p = join NL (map event_reconstruct p).
Proof. unfold event_pool_reconstruct. apply trim_fold_pre. apply Forall_forall. intros x _. apply event_clean. Qed.
Lemma record_lines {E A} (p : str -> res E A) (f : A -> str) (ok : A -> Prop) xs :
  (forall x, ok x -> p (f x) = Ok x) -> (forall x, clean_line (f x)) -> Forall ok xs ->
  Forall (fun x => f x <> [] /\ ~ In NL (f x) /\ p (f x) = Ok x) xs.
Proof.
  intros H C F. eapply Forall_impl; [|exact F]. intros x Hx. split; [now apply clean_nonnil|]. split; [now apply clean_no_nl|auto].
Qed.
Lemma component_pool_rt p : Forall component_ok p -> component_pool_parse (component_pool_reconstruct p) = Ok p.
Proof.
  intros H. rewrite component_pool_text. unfold component_pool_parse, component_pool_parse_iter.
  rewrite pool_reader by (eapply record_lines; eauto using component_rt, component_clean). now rewrite fold_vpush.
Qed.
Lemma event_pool_rt p : Forall event_ok p -> event_pool_parse (event_pool_reconstruct p) = Ok p.
Proof.
  intros H. rewrite event_pool_text. unfold event_pool_parse, event_pool_parse_iter.
  rewrite pool_reader by (eapply record_lines; eauto using event_rt, event_clean). now rewrite fold_vpush.
Qed.
Lemma block_container_rt p : Forall block_ok p -> block_container_parse (block_container_reconstruct p) = Ok p.
Proof.
  intros H. unfold block_container_reconstruct, block_container_parse, block_container_parse_iter. rewrite fold_post. cbn [app].
  assert (F := record_lines _ _ _ p block_rt block_clean H). destruct p as [|x p]; [reflexivity|].
  rewrite concat_post by discriminate.
  replace (join NL (map block_reconstruct (x :: p)) ++ [NL]) with (join NL (map block_reconstruct (x :: p) ++ [[]]))
    by (rewrite join_app by discriminate; reflexivity).
  rewrite split_join.
  - rewrite (pool_loop_ok _ _ _ _ [[]] []).
    + now rewrite fold_vpush.
    + eapply Forall_impl; [|exact F]. cbn. tauto.
    + right. reflexivity.
  - destruct (map _ _); discriminate.
  - apply Forall_app. split; [apply Forall_map; eapply Forall_impl; [|exact F]; cbn; tauto|constructor; auto].
Qed.
