(** Proofs about what fits the files in every project that has been loaded. *)
From Verif Require Import Base Str Flt M_Color M_Logic M_File M_View M_Parsed A_Block A_View A_Screen A_Project SpecBlock SpecView SpecScreen SpecProject BlockContentProofs BlockTripProofs BlockProofs ScreenProofs SaveProofs
  CleanProofs SettleProofs SpecSave SpecBack SpecSettle SpecResave SpecTidy ResaveProofs RereadProofs LogicRereadProofs P_View P_Logic P_Block P_ApiView ViewFlatProofs ViewTreeProofs ApiProjectProofs TwiceProofs.
From Coq Require Import Lia Permutation.
From Verif Require P_Loading.

(** ** The colours of code that has been read *)
Lemma reads_colored (G : N -> block -> Prop) : (forall id pb, G id pb -> block_typed pb) ->
  (forall id b u, reads_block G id b u -> colored b) /\
  (forall z s u, reads_sub G z s u -> sub_all colored s) /\
  (forall id l u, reads_stack G id l u -> stack_all colored l) /\
  (forall h i u, reads_items G h i u -> items_all colored i) /\
  (forall a b u, reads_arg G a b u -> item_all colored (SParam b)).
Proof.
  intros T. apply (reads_ind G (fun _ b _ _ => colored b) (fun _ s _ _ => sub_all colored s) (fun _ l _ _ => stack_all colored l)
    (fun _ i _ _ => items_all colored i) (fun _ b _ _ => item_all colored (SParam b))); intros; cbn [colored sub_all stack_all items_all item_all value_all]; auto.
  match goal with H : G _ _ |- _ => apply T in H as [H _] end. auto.
Qed.
Lemma read_colored c l : blocks_try_from c = Ok l -> Forall block_typed c -> Forall colored l.
Proof.
  intros H F. apply C55_reading in H as (u & (_ & [(_ & -> & _)|(id & _ & R)]) & _); [constructor|]. apply stack_all_forall.
  refine (proj1 (proj2 (proj2 (reads_colored (graph c) _))) _ _ _ R). intros i pb (a & r & -> & _). apply Forall_app in F as [_ F]. now apply Forall_inv in F.
Qed.

(** ** Screens *)
Definition typed_containers (bc : smap block_container) : Prop := Forall (fun kv => Forall block_typed (snd kv)) bc.
Lemma removed_all {V} (P : str * V -> Prop) k m : Forall P m -> Forall P (sremove k m).
Proof. induction m as [|[k' v] m IH]; cbn; auto. intros F. apply Forall_cons_iff in F as [A F]. destruct (str_eqb k k'); auto. Qed.
Lemma taken_typed k bc : typed_containers bc -> Forall block_typed (fst (take_container k bc)) /\ typed_containers (snd (take_container k bc)).
Proof.
  intros F. split; [|now apply removed_all]. cbn. destruct (sget k bc) as [c|] eqn:E; [|constructor]. apply P_Loading.sget_in in E. unfold typed_containers in F. rewrite Forall_forall in F. exact (F _ E).
Qed.
Definition event_good (e : aevent) : Prop := (forall id t, ae_type e = EtComponent id t -> t < 2 ^ 8) /\ Forall colored (ae_code e).
Lemma take_events_good l bc es : take_events l bc = Ok es -> typed_containers bc -> Forall event_typed l -> Forall event_good es.
Proof.
  revert bc es. induction l as [|e l IH]; intros bc es; cbn [take_events]; [intros [= <-]; constructor|]. intros H B F. apply Forall_cons_iff in F as [Fe F].
  destruct (event_try_from e) as [ev| |] eqn:V; cbn [map_err bind] in H; try discriminate. destruct (taken_typed (get_block_container_id ev) bc B) as [C1 C2].
  destruct (take_container (get_block_container_id ev) bc) as [c bc'] eqn:TC. cbn [fst snd] in C1, C2. cbn [bind] in H.
  destruct (blocks_try_from c) as [code| |] eqn:R; cbn [map_err bind] in H; try discriminate. destruct (take_events l bc') as [es'| |] eqn:T; cbn [bind] in H; try discriminate.
  injection H as <-. constructor; [|eauto]. split; [|cbn; eapply read_colored; eauto]. cbn [ae_type]. intros id t E. unfold event_try_from in V.
  destruct (event_type_from e) as [y| |] eqn:Y; cbn [bind] in V; try discriminate. injection V as <-. cbn [ae_type] in E. subst y. clear - Y Fe. unfold event_type_from in Y. destruct Fe as [_ Ft].
  destruct (ev_type e) as [|[[|[]|]|[|[]|]|]]; try discriminate; injection Y as _ <-; exact Ft.
Qed.
(** what is printed of a spec that was read has no characters of its own *)
Lemma joined_in c ls l x : In l ls -> In x l -> In x (join c ls).
Proof.
  induction ls as [|a ls IH]; [intros []|]. intros I X. destruct ls as [|b ls].
  - destruct I as [->|[]]. exact X.
  - rewrite join_cons2. apply in_app_iff. destruct I as [->|I]; [now left|]. right. right. now apply IH.
Qed.
Lemma name_chars r n x : name_of r = Some n -> In x (CH_DOT :: n) -> In x r.
Proof. unfold name_of. destruct r as [|c [|d r]]; try discriminate; destruct (N.eqb_spec c CH_DOT) as [->|]; try discriminate. intros [= <-]. auto. Qed.
Lemma spec_chars spec (is : list (spec_item ablock)) x : parse_wo_params spec = Ok is -> In x (content_to_string is) -> x = 32 \/ In x spec.
Proof.
  unfold parse_wo_params. rewrite items_wo_iff, content_to_string_join. intros H X. apply In_join in X as [X|(l & I & X)]; [now left|right]. rewrite <- (join_split CH_SPACE spec).
  apply in_map_iff in I as (i & <- & I). revert H. generalize (split_on CH_SPACE spec). intros ts H.
  assert (J : exists t, In t ts /\ tok_wo t i) by (clear X; induction H as [|t j ts is T _ IH]; [destruct I|]; destruct I as [->|I]; [exists t; cbn; auto|]; destruct (IH I) as (u & U1 & U2); exists u; cbn; auto).
  destruct J as (t & It & T). apply (joined_in _ _ t); [exact It|]. destruct i as [w|a]; cbn [tok_wo item_spec] in *; [destruct T as [-> _]; exact X|].
  destruct T as [r|r|r|r n E]; cbn [arg_spec] in X; rewrite in_app_iff in X; (destruct X as [X|X]; [cbn in X; destruct X as [X|[X|[]]]; subst x; cbn; auto|]);
    (right; right); try (destruct (name_of r) as [n|] eqn:E; [|destruct X]); eapply name_chars; eauto.
Qed.
Definition more_good (kv : str * amore_block) : Prop :=
  ~ In 10 (fst kv) /\ ~ In 58 (fst kv) /\ ~ In 10 (content_to_string (am_spec (snd kv))) /\ Forall colored (am_code (snd kv)).
Lemma take_more_good l bc ms bc' : take_more_blocks l bc = Ok (ms, bc') -> typed_containers bc -> Forall (fun kv => ~ In 10 (fst kv) /\ ~ In 58 (fst kv) /\ ~ In 10 (mb_spec (snd kv))) l ->
  Forall more_good ms /\ typed_containers bc'.
Proof.
  revert bc ms bc'. induction l as [|[id mb] l IH]; intros bc ms bc'; cbn [take_more_blocks]; [intros [= <- <-] B _; split; [constructor|exact B]|]. intros H B F. apply Forall_cons_iff in F as [(F1 & F2 & F3) F].
  destruct (parse_wo_params (mb_spec mb)) as [sp| |] eqn:PS; cbn [map_err bind] in H; try discriminate. destruct (taken_typed (more_block_container id) bc B) as [C1 C2].
  destruct (take_container (more_block_container id) bc) as [c bc2] eqn:TC. cbn [fst snd] in C1, C2, F1, F2, F3.
  destruct (blocks_try_from c) as [code| |] eqn:R; cbn [map_err bind] in H; try discriminate. destruct (take_more_blocks l bc2) as [[ms' bc3]| |] eqn:T; cbn [bind] in H; try discriminate.
  injection H as <- <-. destruct (IH _ _ _ T C2 F) as [I1 I2]. split; [|exact I2]. constructor; [|exact I1]. split; [exact F1|]. split; [exact F2|]. split; [|cbn; eapply read_colored; eauto].
  intros X. apply (spec_chars _ _ _ PS) in X as [X|X]; [discriminate X|auto].
Qed.
(** what holds of every screen that has been loaded *)
Definition screen_good (s : screen) : Prop :=
  keyed va_name (sc_variables s) /\ keyed lv_name (sc_list_variables s) /\ Forall event_good (sc_events s) /\ Forall more_good (sc_more_blocks s).
Lemma keyed_or_empty {A} (name : A -> str) o : (forall p, o = Some p -> keyed name p) -> keyed name (or_empty o).
Proof. intros H. destruct o as [p|]; [now apply H|]. split; constructor. Qed.
Lemma screen_read_good ln jn fe ve le fab s : screen_from_parsed ln jn fe ve le fab = Ok s -> screen_read le -> screen_good s.
Proof.
  unfold screen_from_parsed. destruct (parse_raw_layout ve) as [views| |]; cbn [map_err bind]; try discriminate.
  destruct (take_more_blocks _ _) as [[ms bc]| |] eqn:TM; cbn [bind]; try discriminate. destruct (take_components _) as [cs| |]; cbn [map_err bind]; try discriminate.
  destruct (take_events _ _) as [es| |] eqn:TE; cbn [bind]; try discriminate. intros [= <-] (_ & V & L & _ & E & MB & _ & BC).
  assert (B : typed_containers (sl_block_containers le)) by (eapply Forall_impl; [|exact BC]; intros kv K; apply K).
  apply take_more_good in TM as [TM B']; [|exact B|]; cycle 1.
  { destruct (sl_more_blocks le) as [mp|]; [|constructor]. destruct (MB mp eq_refl) as [[_ K1] K2]. cbn [or_empty]. rewrite Forall_forall in *. intros kv I. split; [apply (K1 kv I)|]. apply (K2 kv I). }
  apply take_events_good in TE; [|exact B'|]; cycle 1.
  { unfold with_on_create. destruct (smem _ _); cbn [or_empty]; [constructor; [split; reflexivity|]|]; destruct (sl_events le) as [es0|]; try constructor; cbn [or_empty]; apply (E es0 eq_refl). }
  split; [now apply keyed_or_empty|]. split; [now apply keyed_or_empty|]. split; [exact TE|]. cbn [sc_more_blocks]. rewrite Forall_forall in *. intros kv I. apply in_scollect in I. now apply TM.
Qed.
Lemma take_screens_good l lays lgs fabs ss lays' : take_screens l lays lgs fabs = Ok (ss, lays') -> Forall (fun kv => screen_read (snd kv)) lgs -> Forall screen_good ss.
Proof.
  revert lays lgs fabs ss lays'. induction l as [|fe l IH]; intros lays lgs fabs ss lays'; cbn [take_screens]; [intros [= <- _]; constructor|]. cbv zeta. intros H F.
  destruct (screen_from_parsed _ _ _ _ _ _) as [s| |] eqn:E; cbn [map_err bind] in H; try discriminate. destruct (take_screens l _ _ _) as [[ss' lays2]| |] eqn:T; cbn [bind] in H; try discriminate.
  injection H as <- _. constructor; [|eapply IH; [exact T|now apply removed_all]]. destruct (sget (view_name_to_logic (fi_filename fe)) lgs) as [x|] eqn:G.
  - apply P_Loading.sget_in in G. rewrite Forall_forall in F. eapply screen_read_good; [exact E|exact (F _ G)].
  - (* the name of an empty logic does not matter *)
    eapply (screen_read_good _ _ _ _ (screen_new_empty [])); [exact E|]. split; [intros []|]. repeat (split; [discriminate|]). split; constructor.
Qed.
Lemma project_read_good mv s rnd v p : logic_parse mv s = Ok (pp_logic v) -> project_try_from rnd v = Ok p -> Forall screen_good (sp_screens p).
Proof.
  intros L H. apply logic_file_read in L as [_ L]. unfold project_try_from in H. cbv zeta in H. destruct (take_screens _ _ _ _) as [[ss lays]| |] eqn:T; cbn [bind] in H; try discriminate.
  repeat match type of H with context [bind ?x _] => destruct x; cbn [bind] in H; try discriminate H end.
  injection H as <-. cbn [sp_screens]. eapply take_screens_good; [exact T|]. eapply Forall_impl; [|exact L]. intros kv K. apply K.
Qed.

(** ** Layouts and floating buttons *)
Lemma layout_fits l F : parse_raw_layout l = Ok F -> Forall view_read l -> (views_fit F <-> finite_layout F).
Proof.
  intros H V. pose proof (C38_no_loss _ _ H) as P0. destruct (flatten_parsed _ _ H) as (ps & P1 & P2 & P3). unfold views_fit, finite_layout.
  rewrite Forall_forall in V.
  assert (A : forall a t, In (a, t) ps -> In a l) by (intros a t I; eapply Permutation_in; [exact P1|]; apply (in_map fst) in I; exact I).
  assert (B : forall a t, In (a, t) ps -> t < 2 ^ 8).
  { intros a t I. destruct (P3 a t I) as [(_ & ->)|(b & Ib & _ & -> & _)]; [reflexivity|]. pose proof (seen_bound b) as K. assert (is_u8 (av_type b)) as U by apply (V b Ib). unfold is_u8 in U. lia. }
  split.
  - intros K. apply Forall_forall. intros n I. assert (In (vn_raw n) (map fst ps)) as J by (eapply Permutation_in; [symmetry; exact P1|]; eapply Permutation_in; [exact P0|]; now apply in_map).
    apply in_map_iff in J as ([a t] & E & J). cbn [fst] in E. rewrite <- E. destruct (K (written a t)) as [_ Fi]; [|exact Fi]. eapply Permutation_in; [symmetry; exact P2|]. apply in_map_iff. now exists (a, t).
  - intros K x I. eapply Permutation_in in I; [|exact P2]. apply in_map_iff in I as ([a t] & <- & I). cbn [fst snd]. apply typed_written; [apply (V a), (A a t I)| |exact (B a t I)].
    rewrite Forall_forall in K. apply A in I. eapply Permutation_in in I; [|symmetry; exact P0]. apply in_map_iff in I as (n & <- & I). now apply K.
Qed.
Lemma button_kept a : snd (flatten_node (attrs_of a) ROOT 0) = written (set_av_parent (Some ROOT) a) 0.
Proof.
  rewrite <- (flatten_attrs (set_av_parent (Some ROOT) a) ROOT 0) by reflexivity. unfold flatten_node, type_of_view. cbn [attrs_of vn_view vn_id vn_raw]. destruct a; cbn. reflexivity.
Qed.
Lemma fab_fits a : view_read a -> (button_fits (view_from a) <-> finite_floats a).
Proof.
  intros [W _]. unfold button_fits, view_from. rewrite fab_of_ok, button_kept. split.
  - intros K. destruct (K _ eq_refl) as [_ Fi]. exact Fi.
  - intros K x [= <-]. split; [|exact K]. unfold well_typed in *. cbv zeta in *. destruct W as (T1 & T2 & T3 & T4 & T5 & _ & T6).
    split; [exact T1|]. split; [exact T2|]. split; [exact T3|]. split; [exact T4|]. split; [exact T5|]. split; [|exact T6]. change (is_i8 (-1)%Z). unfold is_i8. lia.
Qed.
Definition laid_out (F : list aview) : Prop := exists l, Forall view_read l /\ parse_raw_layout l = Ok F.
Definition views_good (s : screen) : Prop := laid_out (sc_layout s) /\ (forall v, sc_fab s = Some v -> exists a, view_read a /\ v = view_from a).
Lemma got_layout n lays : Forall (fun kv => Forall view_read (snd kv)) lays -> Forall view_read (or_empty (sget n lays)).
Proof. intros F. destruct (sget n lays) as [l|] eqn:E; [|constructor]. apply P_Loading.sget_in in E. rewrite Forall_forall in F. exact (F _ E). Qed.
Lemma take_screens_views l lays lgs fabs ss lays' : take_screens l lays lgs fabs = Ok (ss, lays') ->
  Forall (fun kv => Forall view_read (snd kv)) lays -> Forall (fun kv => view_read (snd kv)) fabs ->
  Forall views_good ss /\ Forall (fun kv => Forall view_read (snd kv)) lays'.
Proof.
  revert lays lgs fabs ss lays'. induction l as [|fe l IH]; intros lays lgs fabs ss lays'; cbn [take_screens]; [intros [= <- <-]; split; [constructor|assumption]|]. cbv zeta. intros H FL FF.
  destruct (screen_from_parsed _ _ _ _ _ _) as [s| |] eqn:E; cbn [map_err bind] in H; try discriminate. destruct (take_screens l _ _ _) as [[ss' lays2]| |] eqn:T; cbn [bind] in H; try discriminate.
  injection H as <- <-. apply IH in T as [T1 T2]; [|now apply removed_all|now apply removed_all]. split; [|exact T2]. constructor; [|exact T1].
  unfold screen_from_parsed in E. destruct (parse_raw_layout _) as [views| |] eqn:PL; cbn [map_err bind] in E; try discriminate.
  destruct (take_more_blocks _ _) as [[ms bc]| |]; cbn [bind] in E; try discriminate. destruct (take_components _) as [cs| |]; cbn [map_err bind] in E; try discriminate.
  destruct (take_events _ _) as [es| |]; cbn [bind] in E; try discriminate. injection E as <-. split; cbn [sc_layout sc_fab].
  - eexists. split; [|exact PL]. now apply got_layout.
  - intros v. destruct (sget (fi_filename fe) fabs) as [a|] eqn:G; cbn [option_map]; [|discriminate]. intros [= <-]. exists a. split; [|reflexivity]. apply P_Loading.sget_in in G. rewrite Forall_forall in FF. exact (FF _ G).
Qed.
Lemma take_custom_good l lays cs : take_custom_views l lays = Ok cs -> Forall (fun kv => Forall view_read (snd kv)) lays -> Forall (fun c => laid_out (cv_layout c)) cs.
Proof.
  revert lays cs. induction l as [|fe l IH]; intros lays cs; cbn [take_custom_views]; [intros [= <-]; constructor|]. cbv zeta. intros H F.
  destruct (sget (fi_filename fe) lays) as [lay|] eqn:G; cbn [ok_or bind] in H; try discriminate. destruct (parse_raw_layout lay) as [views| |] eqn:PL; cbn [map_err bind] in H; try discriminate.
  destruct (take_custom_views l _) as [cs'| |] eqn:T; cbn [bind] in H; try discriminate. injection H as <-. constructor; [|eapply IH; [exact T|now apply removed_all]].
  exists lay. split; [|exact PL]. apply P_Loading.sget_in in G. rewrite Forall_forall in F. exact (F _ G).
Qed.
Lemma project_views_good s rnd v p : view_parse s = Ok (pp_view v) -> project_try_from rnd v = Ok p ->
  Forall views_good (sp_screens p) /\ Forall (fun c => laid_out (cv_layout c)) (sp_custom_views p).
Proof.
  intros L H. apply view_file_read in L as (L1 & L2 & _). apply try_from_inv in H as (lays & ? & ? & ? & T & C & _).
  apply take_screens_views in T as [T1 T2].
  - split; [exact T1|]. eapply take_custom_good; eauto.
  - eapply Forall_impl; [|exact L1]. intros kv K. apply K.
  - eapply Forall_impl; [|exact L2]. intros kv K. apply K.
Qed.

(** ** The names of screens *)
Lemma sget_key {V} k (m : smap V) : (exists v, sget k m = Some v) <-> In k (map fst m).
Proof.
  split.
  - intros (v & G). apply P_Loading.sget_in in G. apply (in_map fst) in G. exact G.
  - induction m as [|[k' v'] m IH]; [intros []|]. cbn. destruct (str_eqb_spec k k') as [->|E]; [eauto|]. intros [X|X]; [congruence|auto].
Qed.
Lemma take_screens_named l lays lgs fabs ss lays' : take_screens l lays lgs fabs = Ok (ss, lays') -> Forall (fun kv => fst kv = sl_name (snd kv)) lgs ->
  map sc_layout_name ss = map fi_filename l /\
  forall a s b, ss = a ++ s :: b -> let j := view_name_to_logic (sc_layout_name s) in
    (In j (map fst lgs) /\ ~ In j (map (fun x => view_name_to_logic (sc_layout_name x)) a) -> sc_java_name s = j) /\
    (~ In j (map fst lgs) \/ In j (map (fun x => view_name_to_logic (sc_layout_name x)) a) -> sc_java_name s = sc_layout_name s /\ no_logic s).
Proof.
  revert lays lgs fabs ss lays'. induction l as [|fe l IH]; intros lays lgs fabs ss lays'; cbn [take_screens]; [intros [= <- _] _; split; [reflexivity|]; intros a s b E; destruct a; discriminate E|]. cbv zeta. intros H F.
  destruct (screen_from_parsed _ _ _ _ _ _) as [s| |] eqn:E; cbn [map_err bind] in H; try discriminate. destruct (take_screens l _ _ _) as [[ss' lays2]| |] eqn:T; cbn [bind] in H; try discriminate.
  injection H as <- _. apply IH in T as [T1 T2]; [|now apply removed_all]. cbn [map]. rewrite T1. set (j0 := view_name_to_logic (fi_filename fe)) in *.
  assert (Here : sc_layout_name s = fi_filename fe /\ (In j0 (map fst lgs) -> sc_java_name s = j0) /\ (~ In j0 (map fst lgs) -> sc_java_name s = sc_layout_name s /\ no_logic s)).
  { unfold screen_from_parsed in E. destruct (parse_raw_layout _) as [views| |]; cbn [map_err bind] in E; try discriminate.
    destruct (sget j0 lgs) as [x|] eqn:G.
    - destruct (take_more_blocks _ _) as [[ms bc]| |]; cbn [bind] in E; try discriminate. destruct (take_components _) as [cs| |]; cbn [map_err bind] in E; try discriminate.
      destruct (take_events _ _) as [es| |]; cbn [bind] in E; try discriminate. injection E as <-. split; [reflexivity|]. split; [|intros X; elim X; apply sget_key; eauto]. intros _. cbn [sc_java_name].
      apply P_Loading.sget_in in G. rewrite Forall_forall in F. symmetry. exact (F _ G).
    - cbn in E. injection E as <-. split; [reflexivity|]. split; [intros X; apply sget_key in X as (x & X); congruence|]. intros _. repeat split. }
  destruct Here as (N0 & N1 & N2). split; [now rewrite N0|]. intros a t b Eq. cbv zeta. destruct a as [|t0 a]; injection Eq as <- Eq.
  - rewrite N0. cbn [map In]. fold j0. rewrite N0 in N2. tauto.
  - destruct (T2 a t b Eq) as [K1 K2]. cbn [map In]. rewrite N0. fold j0. rewrite sremove_keys in K1, K2. set (j := view_name_to_logic (sc_layout_name t)) in *. split.
    + intros [X1 X2]. apply K1. split; [split; [|exact X1]|]; intuition congruence.
    + intros [X|[X|X]]; apply K2; [left; tauto|left; intuition congruence|now right].
Qed.

(** ** What is left to ask *)
(** the container of a more block is never taken for a pool *)
Lemma more_name k : ~ In 10 k -> (forall a b, k ++ lit "_moreBlock" <> a ++ lit ".java_" ++ b) -> P_Logic.container_name (k ++ lit "_moreBlock").
Proof.
  intros A B. split; [split; [|exact B]|].
  - rewrite in_app_iff. intros [I|I]; [auto|]. cbn in I. intuition discriminate.
  - intros s a I E. apply (f_equal (@rev N)) in E. rewrite !rev_app_distr in E. cbn [In] in I. destruct I as [<-|[<-|[<-|[<-|[<-|[]]]]]]; cbn in E; discriminate E.
Qed.
Lemma tidy_fits s : screen_good s -> screen_clean s -> views_good s -> Forall (fun l => 9 + N.of_nat (blocks_size l) < 2 ^ 31) (screen_codes s) -> screen_fits s <-> screen_tidy s.
Proof.
  intros (G1 & G2 & G3 & G4) (_ & _ & _ & C) ((l0 & V0 & L0) & V2) Z.
  assert (CF : forall l, In l (screen_codes s) -> Forall colored l -> code_fits l).
  { intros l I K. rewrite Forall_forall in C, Z. apply code_colored; [now apply Z| |exact K]. now destruct (clean_plain l (C l I)). }
  assert (PT : forall A (name : A -> str) m, keyed name m -> (pool_typed name name m <-> last_name name m)).
  { intros A name m [K1 K2]. unfold pool_typed, last_name, ends_well. split; [intros (_ & _ & K); eauto|]. intros K. split; [exact K1|]. split; [exact K2|]. eauto. }
  unfold screen_fits, screen_tidy. rewrite (PT _ _ _ G1), (PT _ _ _ G2).
  assert (EV : Forall event_fits (sc_events s) <-> Forall (fun e => (forall k, SpecScreen.container_name e k -> P_Logic.container_name k) /\ ends_well (ae_name e)) (sc_events s)).
  { rewrite !Forall_forall in *. split; intros K e I; specialize (K e I); [split; apply K|]. destruct (G3 e I) as [H1 H2]. destruct K as [K1 K2]. split; [exact K1|]. split; [exact K2|]. split; [exact H1|].
    apply CF; [|exact H2]. unfold screen_codes. apply in_app_iff. left. now apply in_map. }
  assert (MO : Forall more_block_fits (sc_more_blocks s) <-> Forall (fun kv => forall a b, fst kv ++ lit "_moreBlock" <> a ++ lit ".java_" ++ b) (sc_more_blocks s)).
  { rewrite !Forall_forall in *. split; intros K e I; specialize (K e I); [apply K|]. destruct (G4 e I) as (H1 & H2 & H3 & H4). split; [now apply more_name|]. split; [exact H1|]. split; [exact H2|]. split; [exact H3|].
    apply CF; [|exact H4]. unfold screen_codes. apply in_app_iff. right. apply (in_map (fun kv => am_code (snd kv))) in I. exact I. }
  assert (FB : (forall v, sc_fab s = Some v -> button_fits v) <-> (forall v, sc_fab s = Some v -> finite_layout [v])).
  { split; intros K v E; destruct (V2 v E) as (a & A & ->); specialize (K _ E).
    - constructor; [exact (proj1 (fab_fits a A) K)|constructor].
    - exact (proj2 (fab_fits a A) (Forall_inv K)). }
  rewrite EV, MO, FB, (layout_fits _ _ L0 V0). reflexivity.
Qed.
