(** Proofs about logic files that have been read: their screens satisfy the hypotheses of C22, but for some names. *)
From Verif Require Import Base Str Dec Json M_Logic LogicProofs LogicFileProofs LogicMapProofs LogicReadingProofs ReadingProofs P_Logic SpecReread RereadProofs.
From Coq Require Import Lia Permutation.

Definition one_line (s : str) : Prop := ~ In 10 s.
Definition keyed {A} (name : A -> str) (p : smap A) : Prop := NoDup (map fst p) /\ Forall (fun kv => fst kv = name (snd kv) /\ one_line (fst kv)) p.
Definition more_read (p : more_block_pool) : Prop := keyed mb_id p /\ Forall (fun kv => ~ In 58 (fst kv) /\ one_line (mb_spec (snd kv))) p.
Definition screen_read (x : screen_logic) : Prop :=
  one_line (sl_name x) /\
  (forall p, sl_variables x = Some p -> keyed va_name p) /\ (forall p, sl_list_variables x = Some p -> keyed lv_name p) /\
  (forall p, sl_components x = Some p -> Forall component_typed p) /\ (forall p, sl_events x = Some p -> Forall event_typed p) /\
  (forall p, sl_more_blocks x = Some p -> more_read p) /\
  NoDup (map fst (sl_block_containers x)) /\ Forall (fun kv => one_line_name (fst kv) /\ Forall block_typed (snd kv)) (sl_block_containers x).
Definition has_some (x : screen_logic) : Prop :=
  sl_variables x <> None \/ sl_list_variables x <> None \/ sl_components x <> None \/ sl_events x <> None \/ sl_more_blocks x <> None \/ sl_block_containers x <> [].
Definition logic_read (m : logic) : Prop := NoDup (map fst m) /\ Forall (fun kv => fst kv = sl_name (snd kv) /\ screen_read (snd kv) /\ has_some (snd kv)) m.

Lemma keyed_insert {A} (name : A -> str) x p : one_line (name x) -> keyed name p -> keyed name (sinsert (name x) x p).
Proof. intros H [A1 A2]. split; [now apply sinsert_nodup|]. apply inserted_all; [split; [reflexivity|exact H]|exact A2]. Qed.
Lemma keyed_fold {A} (name : A -> str) xs : forall p, Forall (fun x => one_line (name x)) xs -> keyed name p -> keyed name (fold_left (fun m x => sinsert (name x) x m) xs p).
Proof. induction xs as [|x xs IH]; intros p H K; [exact K|]. apply Forall_cons_iff in H as [H1 H]. cbn [fold_left]. apply IH; [exact H|]. now apply keyed_insert. Qed.
Lemma more_fold xs : forall p, Forall (fun x => ~ In 58 (mb_id x) /\ one_line (mb_spec x) /\ one_line (mb_id x)) xs -> more_read p -> more_read (fold_left (fun m x => sinsert (mb_id x) x m) xs p).
Proof.
  induction xs as [|x xs IH]; intros p H K; [exact K|]. apply Forall_cons_iff in H as [(H1 & H2 & H3) H]. cbn [fold_left]. apply IH; [exact H|]. destruct K as [K1 K2]. split; [now apply keyed_insert|].
  apply inserted_all; [|exact K2]. cbn [fst snd]. auto.
Qed.
Lemma keyed_nil {A} (name : A -> str) : keyed name [].
Proof. split; constructor. Qed.
Lemma colon_parts s a b : one_line s -> split_once (lit ":") s = Some (a, b) -> one_line a /\ one_line b.
Proof. intros H E. apply split_once_spec in E. subst s. split; intros I; apply H; rewrite !in_app_iff; auto. Qed.
Lemma colon_left s a b : split_once (lit ":") s = Some (a, b) -> ~ In 58 a.
Proof.
  intros E. pose proof (split_once_first (lit ":") s) as H. rewrite E in H. destruct H as [-> H]. intros I. apply in_split in I as (x & y & ->). apply H. exists x, (y ++ lit ":" ++ b).
  split; [now rewrite <- app_assoc|]. rewrite app_length. cbn. lia.
Qed.
Lemma variable_line s v : one_line s -> variable_parse s = Ok v -> one_line (va_name v).
Proof.
  unfold variable_parse. intros H. destruct (split_once (lit ":") s) as [[a b]|] eqn:E; cbn [ok_or bind]; [|discriminate]. apply colon_parts in E as [_ E]; [|exact H].
  destruct (parse_u8 a) as [n|]; cbn [ok_or bind]; [|discriminate]. destruct (variable_type_of n); cbn [ok_or bind]; [|discriminate]. intros [= <-]. exact E.
Qed.
Lemma list_variable_line s v : one_line s -> list_variable_parse s = Ok v -> one_line (lv_name v).
Proof.
  unfold list_variable_parse. intros H. destruct (split_once (lit ":") s) as [[a b]|] eqn:E; cbn [ok_or bind]; [|discriminate]. apply colon_parts in E as [_ E]; [|exact H].
  destruct (parse_u8 a) as [n|]; cbn [ok_or bind]; [|discriminate]. destruct (variable_type_of n); cbn [ok_or bind]; [|discriminate]. intros [= <-]. exact E.
Qed.
Lemma more_line s v : one_line s -> more_block_parse s = Ok v -> ~ In 58 (mb_id v) /\ one_line (mb_spec v) /\ one_line (mb_id v).
Proof.
  unfold more_block_parse. intros H. destruct (split_once (lit ":") s) as [[a b]|] eqn:E; cbn [ok_or bind]; [|discriminate]. intros [= <-]. cbn [mb_id mb_spec].
  split; [eapply colon_left; eauto|]. apply colon_parts in E as [E1 E2]; auto.
Qed.
(** what a pool reads comes from lines, and leaves lines *)
Lemma section_read {E A M} (p : str -> res E A) (ins : A -> M -> M) (P : A -> Prop) lines n acc r rest :
  (forall s x, one_line s -> p s = Ok x -> P x) -> Forall one_line lines -> pool_loop p ins lines n acc = Ok (r, rest) ->
  Forall one_line rest /\ exists xs, Forall P xs /\ r = fold_left (fun m x => ins x m) xs acc.
Proof.
  intros H L R. apply pool_loop_inv in R as (used & tail & xs & -> & SE & _ & F & ->). apply Forall_app in L as [L1 L2]. split.
  - destruct SE as [[_ ->]| ->]; [constructor|]. now apply Forall_inv_tail in L2.
  - exists xs. split; [|reflexivity]. clear -H F L1. induction F as [|l x used xs F1 _ IH]; [constructor|]. apply Forall_cons_iff in L1 as [L1 L]. constructor; eauto.
Qed.
Lemma part_line a b c : one_line (a ++ b ++ c) -> one_line b.
Proof. intros H I. apply H. rewrite !in_app_iff. auto. Qed.
Lemma header_line n l name : one_line l -> header_name n l = Ok name -> one_line name.
Proof.
  unfold header_name, bslice. intros H P. destruct (_ <=? _)%nat; [|discriminate]. destruct (_ <=? _)%nat; [|discriminate].
  destruct (bdrop 1 l) as [t|] eqn:D; cbn [obind unwrap] in P; [|discriminate]. destruct (btake _ t) as [u|] eqn:T; cbn [unwrap] in P; [|discriminate]. injection P as <-.
  apply bdrop_spec in D as (a & -> & _). apply btake_spec in T as (c & -> & _). eapply part_line; eauto.
Qed.
Lemma container_line l h : one_line l -> container_header_parse l = Ok h -> one_line (ch_screen h) /\ one_line_name (ch_container h).
Proof.
  intros H P. apply container_header_iff in P as (rest & -> & _ & [N1 R]). split; [apply (part_line [64] _ (lit ".java_" ++ rest)); exact H|]. split; [|exact N1].
  intros I. apply H. right. rewrite !in_app_iff. right. right. destruct R as [->|[d ->]]; [exact I|rewrite in_app_iff; now left].
Qed.
Lemma entry_read mv k f m : one_line k -> (forall x, sl_name (f x) = sl_name x) -> (forall x, screen_read x -> screen_read (f x) /\ has_some (f x)) -> logic_read m -> logic_read (entry_update mv k f m).
Proof.
  intros K SN F [M1 M2]. split; [now apply entry_nodup|]. unfold entry_update.
  assert (E0 : screen_read (screen_new_empty k)) by (repeat split; try exact K; try discriminate; constructor).
  destruct (sget k m) as [v|] eqn:G.
  - assert (V : In (k, v) m) by now apply sget_some_in. rewrite Forall_forall in M2. destruct (M2 _ V) as (V1 & V2 & _). cbn [fst snd] in V1, V2. destruct mv.
    + apply Forall_app. split; [|constructor; [|constructor]; cbn [fst snd]; rewrite SN; split; [exact V1|now apply F]].
      apply Forall_forall. intros kv I. apply M2. clear -I. unfold sremove in I. induction m as [|[k' w] m IH]; [destruct I|]. cbn [lremove] in I. destruct (str_eqb k k'); [right; auto|]. destruct I as [I|I]; [left; exact I|right; auto].
    + assert (M3 : Forall (fun kv => fst kv = sl_name (snd kv) /\ screen_read (snd kv) /\ has_some (snd kv)) m) by now apply Forall_forall. clear -M3 SN F. induction M3 as [|[k' w] m (W1 & W2 & W3) W IH]; cbn [supdate]; [constructor|]. cbn [fst snd] in *.
      destruct (str_eqb k k'); constructor; auto. cbn [fst snd]. rewrite SN. auto.
  - apply Forall_app. split; [exact M2|]. constructor; [|constructor]. cbn [fst snd]. rewrite SN. split; [reflexivity|now apply F].
Qed.
Ltac screen_parts := match goal with H : screen_read _ |- _ => destruct H as (? & ? & ? & ? & ? & ? & ? & ?) end.
Ltac screen_set := intros x H; screen_parts; split;
  [unfold screen_read; repeat match goal with |- _ /\ _ => split end; cbn [sl_name sl_variables sl_list_variables sl_components sl_events sl_more_blocks sl_block_containers set_variables set_list_variables set_components set_events set_more_blocks]; auto; (intros ? [= <-]; assumption)|
   unfold has_some; cbn [sl_variables sl_list_variables sl_components sl_events sl_more_blocks sl_block_containers set_variables set_list_variables set_components set_events set_more_blocks]; repeat (first [left; discriminate|right])].
Lemma set_variables_read p : keyed va_name p -> forall x, screen_read x -> screen_read (set_variables p x) /\ has_some (set_variables p x).
Proof. intros K. screen_set. Qed.
Lemma set_lists_read p : keyed lv_name p -> forall x, screen_read x -> screen_read (set_list_variables p x) /\ has_some (set_list_variables p x).
Proof. intros K. screen_set. Qed.
Lemma set_components_read p : Forall component_typed p -> forall x, screen_read x -> screen_read (set_components p x) /\ has_some (set_components p x).
Proof. intros K. screen_set. Qed.
Lemma set_events_read p : Forall event_typed p -> forall x, screen_read x -> screen_read (set_events p x) /\ has_some (set_events p x).
Proof. intros K. screen_set. Qed.
Lemma set_more_read p : more_read p -> forall x, screen_read x -> screen_read (set_more_blocks p x) /\ has_some (set_more_blocks p x).
Proof. intros K. screen_set. Qed.
Lemma add_container_read c b : one_line_name c -> Forall block_typed b -> forall x, screen_read x -> screen_read (add_container c b x) /\ has_some (add_container c b x).
Proof.
  intros C B x (? & ? & ? & ? & ? & ? & K1 & K2). split.
  - unfold screen_read. cbn [add_container sl_name sl_variables sl_list_variables sl_components sl_events sl_more_blocks sl_block_containers].
    repeat match goal with |- _ /\ _ => split end; auto; [now apply sinsert_nodup|]. apply inserted_all; auto.
  - unfold has_some. right. right. right. right. right. cbn [add_container sl_block_containers]. unfold sinsert, linsert. intros E. apply app_eq_nil in E as [_ E]. discriminate.
Qed.
Lemma logic_loop_read mv k : forall lines n m g, Forall one_line lines -> logic_read m -> logic_loop mv k lines n m = Ok g -> logic_read g.
Proof.
  induction k as [|k IH]; intros lines n m g L A H; (destruct lines as [|line rest]; cbn [logic_loop] in H; [injection H as <-; exact A|]); [discriminate|]. apply Forall_cons_iff in L as [Hl L].
  destruct (negb _); [injection H as <-; exact A|].
  destruct (ends_with (lit "java_var") line).
  { destruct (header_name 9 line) as [name| |] eqn:HN; cbn [bind] in H; try discriminate. apply header_line in HN; [|exact Hl]. unfold variable_pool_parse_iter in H.
    match type of H with context [pool_loop ?a ?b rest 0 ?c] => destruct (pool_loop a b rest 0 c) as [[p r]| |] eqn:R end; cbn [map_err bind fst snd] in H; try discriminate.
    apply (section_read _ _ (fun x => one_line (va_name x)) _ _ _ _ _ variable_line L) in R as [R (xs & X & ->)]. revert H. apply IH; [exact R|]. apply entry_read; [exact HN|reflexivity| |exact A]. apply set_variables_read. apply (keyed_fold va_name); [exact X|apply keyed_nil]. }
  destruct (ends_with (lit "java_list") line).
  { destruct (header_name 10 line) as [name| |] eqn:HN; cbn [bind] in H; try discriminate. apply header_line in HN; [|exact Hl]. unfold list_variable_pool_parse_iter in H.
    match type of H with context [pool_loop ?a ?b rest 0 ?c] => destruct (pool_loop a b rest 0 c) as [[p r]| |] eqn:R end; cbn [map_err bind fst snd] in H; try discriminate.
    apply (section_read _ _ (fun x => one_line (lv_name x)) _ _ _ _ _ list_variable_line L) in R as [R (xs & X & ->)]. revert H. apply IH; [exact R|]. apply entry_read; [exact HN|reflexivity| |exact A]. apply set_lists_read. apply (keyed_fold lv_name); [exact X|apply keyed_nil]. }
  destruct (ends_with (lit "java_components") line).
  { destruct (header_name 16 line) as [name| |] eqn:HN; cbn [bind] in H; try discriminate. apply header_line in HN; [|exact Hl]. unfold component_pool_parse_iter in H.
    match type of H with context [pool_loop ?a ?b rest 0 ?c] => destruct (pool_loop a b rest 0 c) as [[p r]| |] eqn:R end; cbn [map_err bind fst snd] in H; try discriminate.
    apply (section_read _ _ component_typed _ _ _ _ _ (fun s x _ => component_line_range s x) L) in R as [R (xs & X & ->)]. revert H. apply IH; [exact R|]. apply entry_read; [exact HN|reflexivity| |exact A]. apply set_components_read. apply pushed_all; [constructor|exact X]. }
  destruct (ends_with (lit "java_events") line).
  { destruct (header_name 12 line) as [name| |] eqn:HN; cbn [bind] in H; try discriminate. apply header_line in HN; [|exact Hl]. unfold event_pool_parse_iter in H.
    match type of H with context [pool_loop ?a ?b rest 0 ?c] => destruct (pool_loop a b rest 0 c) as [[p r]| |] eqn:R end; cbn [map_err bind fst snd] in H; try discriminate.
    apply (section_read _ _ event_typed _ _ _ _ _ (fun s x _ => event_line_range s x) L) in R as [R (xs & X & ->)]. revert H. apply IH; [exact R|]. apply entry_read; [exact HN|reflexivity| |exact A]. apply set_events_read. apply pushed_all; [constructor|exact X]. }
  destruct (ends_with (lit "java_func") line).
  { destruct (header_name 10 line) as [name| |] eqn:HN; cbn [bind] in H; try discriminate. apply header_line in HN; [|exact Hl]. unfold more_block_pool_parse_iter in H.
    match type of H with context [pool_loop ?a ?b rest 0 ?c] => destruct (pool_loop a b rest 0 c) as [[p r]| |] eqn:R end; cbn [map_err bind fst snd] in H; try discriminate.
    apply (section_read _ _ (fun x => ~ In 58 (mb_id x) /\ one_line (mb_spec x) /\ one_line (mb_id x)) _ _ _ _ _ more_line L) in R as [R (xs & X & ->)]. revert H. apply IH; [exact R|]. apply entry_read; [exact HN|reflexivity| |exact A]. apply set_more_read.
    apply more_fold; [apply (pushed_all (fun x => ~ In 58 (mb_id x) /\ one_line (mb_spec x) /\ one_line (mb_id x))); [constructor|exact X]|split; [apply keyed_nil|constructor]]. }
  destruct (container_header_parse line) as [h| |] eqn:HP; cbn [map_err bind] in H; try discriminate. apply container_line in HP as [HS HC]; [|exact Hl]. unfold block_container_parse_iter in H.
  match type of H with context [pool_loop ?a ?b rest 0 ?c] => destruct (pool_loop a b rest 0 c) as [[p r]| |] eqn:R end; cbn [map_err bind fst snd] in H; try discriminate.
  apply (section_read _ _ block_typed _ _ _ _ _ (fun s x _ => block_line_range s x) L) in R as [R (xs & X & ->)]. revert H. apply IH; [exact R|]. apply entry_read; [exact HS|reflexivity| |exact A]. apply add_container_read; [exact HC|]. apply pushed_all; [constructor|exact X].
Qed.
Lemma logic_file_read mv s l : logic_parse mv s = Ok l -> logic_read l.
Proof. apply logic_loop_read; [apply split_on_In|]. split; constructor. Qed.
Lemma screen_read_typed x : screen_read x -> screen_plain x -> screen_typed x.
Proof.
  intros (N1 & V & L & C & E & M & B1 & B2) (P1 & P2 & P3 & P4 & P5 & P6 & P7). unfold screen_typed. split; [split; assumption|].
  split; [intros p Hp; destruct (V p Hp) as [V1 V2]; split; [exact V1|split; [exact V2|]]; intros r k y s c -> ; now apply (P2 r k y s c)|].
  split; [intros p Hp; destruct (L p Hp) as [V1 V2]; split; [exact V1|split; [exact V2|]]; intros r k y s c -> ; now apply (P3 r k y s c)|].
  split; [exact C|]. split; [exact E|].
  split; [intros p Hp; destruct (M p Hp) as [[V1 V2] V3]; split; [split; [exact V1|split; [exact V2|]]; intros r k y s c -> ; now apply (P4 r k y s c)|split; [exact V3|]]; intros k y r c n ->; now apply (P5 k y r c n)|].
  split; [exact B1|]. split; [|exact P7]. rewrite Forall_forall in *. intros kv I. destruct (B2 kv I) as [H1 H2]. split; [split; [exact H1|now apply P6]|exact H2].
Qed.
Lemma logic_reread mv s l : logic_parse mv s = Ok l -> Forall (fun kv => screen_plain (snd kv)) l ->
  exists r, logic_parse mv (logic_reconstruct l) = Ok r /\ (Permutation r l <-> containers_first l).
Proof.
  intros H P. apply logic_file_read in H as [H1 H2].
  assert (T : logic_typed l).
  { split; [exact H1|]. rewrite Forall_forall in *. intros kv I. destruct (H2 kv I) as (A & B & _). split; [exact A|]. apply screen_read_typed; [exact B|now apply P]. }
  destruct (C22_exact mv l T) as (r & R & X). exists r. split; [exact R|]. rewrite X. split; [tauto|]. intros K. split; [|exact K].
  unfold nonempty_screens. apply Forall_map. eapply Forall_impl; [|exact H2]. intros kv (_ & _ & A). exact A.
Qed.
