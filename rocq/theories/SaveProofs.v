(** Proofs about saving and loading a project of the API. *)
From Coq Require Import Lia Permutation.
From Verif Require Import Base Str M_Color M_Date M_Raw M_Project M_File M_Library M_Resource M_View M_Logic M_Parsed A_Block A_View A_Screen A_Project
  SpecBlock SpecView SpecScreen SpecProject SpecLoad SpecSave ViewTreeProofs ScreenProofs ApiProjectProofs LibraryProofs ResFilesProofs DateProofs ProjectProofs P_Files P_Project P_View P_Logic P_Parsed P_Screen P_ApiProject P_Loading.

(** ** The order of the maps does not matter *)
Definition files_alike (f g : option res_files) : Prop := match f, g with None, None => True | Some f, Some g => same_files f g | _, _ => False end.
(** two logic sections that every screen is read from in the same way *)
Definition reads_as (o o' : option screen_logic) : Prop :=
  o' = o \/ exists x y, o = Some x /\ o' = Some y /\ sl_name y = sl_name x /\
    forall ln jn fe ve fab, screen_from_parsed ln jn fe ve y fab = screen_from_parsed ln jn fe ve x fab.
Definition alike (v v' : parsed_project) : Prop :=
  pp_project v' = pp_project v /\ pp_file v' = pp_file v /\ pp_library v' = pp_library v /\ pp_resource v' = pp_resource v /\
  (forall k, sget k (vw_layouts (pp_view v')) = sget k (vw_layouts (pp_view v))) /\
  (forall k, sget k (vw_fabs (pp_view v')) = sget k (vw_fabs (pp_view v))) /\
  (forall k, reads_as (sget k (pp_logic v)) (sget k (pp_logic v'))) /\ files_alike (pp_resource_files v) (pp_resource_files v').
Lemma in_order_impl {X E A} (P Q : list X -> X -> res E A -> Prop) l r : (forall b x y, P b x y -> Q b x y) -> in_order P l r -> in_order Q l r.
Proof.
  intros I [(ys & E1 & L & H)|(b & x & a & bad & E1 & S & F & H)].
  - left. exists ys. split; [exact E1|]. split; [exact L|]. intros b x a E2. destruct (H b x a E2) as (y & N & S). eauto.
  - right. exists b, x, a, bad. split; [exact E1|]. split; [auto|]. split; [exact F|]. intros b' z a' E2. destruct (H _ _ _ E2) as (y & S'). eauto.
Qed.
Lemma unused_alike {V} (m m' : smap V) used k o : sget k m' = sget k m -> unused m used k o -> unused m' used k o.
Proof. unfold unused. now intros ->. Qed.
Lemma screen_step_alike v v' b fe r : alike v v' -> screen_step v b fe r -> screen_step v' b fe r.
Proof.
  intros (_ & _ & _ & _ & L & F & G & _) (ve & le & fab & s & ((o1 & U1 & E1) & (o2 & U2 & E2) & (o3 & U3 & E3)) & R & E).
  assert (P1 : exists o, unused (vw_layouts (pp_view v')) (map fi_filename b) (fi_filename fe) o /\ ve = or_empty o).
  { exists o1. split; [|exact E1]. eapply unused_alike; [apply L|exact U1]. }
  assert (P3 : exists o, unused (vw_fabs (pp_view v')) (map fi_filename b) (fi_filename fe) o /\ fab = option_map view_from o).
  { exists o3. split; [|exact E3]. eapply unused_alike; [apply F|exact U3]. }
  destruct U2 as [[I ->]|[I ->]].
  - exists ve, le, fab, s. split; [|auto]. split; [exact P1|]. split; [|exact P3]. exists None. split; [now left|exact E2].
  - destruct (G (view_name_to_logic (fi_filename fe))) as [K|(x & y & K1 & K2 & N & SR)].
    + exists ve, le, fab, s. split; [|auto]. split; [exact P1|]. split; [|exact P3]. eexists. split; [right; split; [exact I|reflexivity]|]. now rewrite K.
    + rewrite K1 in E2. subst le. exists ve, y, fab, s. split; [split; [exact P1|split; [|exact P3]]|].
      * exists (Some y). split; [right; auto|reflexivity].
      * split; [|exact E]. apply C67_reads. apply C67_reads in R. rewrite N, SR. exact R.
Qed.
Lemma custom_view_step_alike v v' b fe r : alike v v' -> custom_view_step v b fe r -> custom_view_step v' b fe r.
Proof.
  intros (_ & EF & _ & _ & L & _) (o & U & H). exists o. split; [|exact H]. rewrite EF. eapply unused_alike; [apply L|exact U].
Qed.
Lemma resource_step_alike t rnd (m m' : option (smap res_wrapper)) b it r :
  match m, m' with None, None => True | Some a, Some b => forall k, sget k b = sget k a | _, _ => False end ->
  resource_step t rnd m b it r -> resource_step t rnd m' b it r.
Proof.
  destruct m, m'; try contradiction; cbn; intros H; auto. intros (o & U & E). exists o. split; [|exact E]. eapply unused_alike; [apply H|exact U].
Qed.
Lemma project_reads_alike rnd v v' r : alike v v' -> project_reads rnd v r -> project_reads rnd v' r.
Proof.
  intros A H. pose proof A as (E1 & E2 & E3 & E4 & _ & _ & _ & FA). unfold project_reads in *. rewrite E1, E2, E3, E4.
  assert (FF : forall f, match option_map f (pp_resource_files v), option_map f (pp_resource_files v') with
            | None, None => True | Some a, Some b => (forall g h, same_files g h -> forall k : str, sget k (f h : smap res_wrapper) = sget k (f g)) -> forall k, sget k b = sget k a | _, _ => False end).
  { intros f. unfold files_alike in FA. destruct (pp_resource_files v), (pp_resource_files v'); cbn; try contradiction; auto. }
  assert (R : forall t f, (forall g h, same_files g h -> forall k : str, sget k (f h : smap res_wrapper) = sget k (f g)) -> forall b it x,
    resource_step t (rnd t) (option_map f (pp_resource_files v)) b it x -> resource_step t (rnd t) (option_map f (pp_resource_files v')) b it x).
  { intros t f G b it x. apply resource_step_alike. specialize (FF f). destruct (option_map f (pp_resource_files v)), (option_map f (pp_resource_files v')); auto. }
  destruct H as (ss & S & H). exists ss. split; [eapply in_order_impl; [intros; eapply screen_step_alike; eauto|exact S]|].
  destruct ss as [ss| |]; cbn [after] in *; auto.
  destruct H as (cs & C & H). exists cs. split; [eapply in_order_impl; [intros; eapply custom_view_step_alike; eauto|exact C]|].
  destruct cs as [cs| |]; cbn [after] in *; auto.
  destruct H as (fb & F & H). exists fb. split; [exact F|]. destruct fb as [fb| |]; cbn [after] in *; auto.
  destruct H as (am & AM & H). exists am. split; [exact AM|]. destruct am as [am| |]; cbn [after] in *; auto.
  destruct H as (gm & GM & H). exists gm. split; [exact GM|]. destruct gm as [gm| |]; cbn [after] in *; auto.
  destruct H as (im & IM & H). exists im. split; [eapply in_order_impl; [apply R; intros g h (_ & X & _); exact X|exact IM]|].
  destruct im as [im| |]; cbn [after] in *; auto.
  destruct H as (so & SO & H). exists so. split; [eapply in_order_impl; [apply R; intros g h (_ & _ & X & _); exact X|exact SO]|].
  destruct so as [so| |]; cbn [after] in *; auto.
  destruct H as (fo & FO & H). exists fo. split; [eapply in_order_impl; [apply R; intros g h (_ & _ & _ & X); exact X|exact FO]|].
  destruct fo as [fo| |]; cbn [after] in *; auto.
  destruct H as (compat & CO & ->). exists compat. split; [exact CO|]. clear FF R.
  unfold files_alike in FA. destruct (pp_resource_files v) as [f|], (pp_resource_files v') as [g|]; try contradiction; [|reflexivity].
  destruct FA as (-> & _). reflexivity.
Qed.
Lemma try_from_alike rnd v v' : alike v v' -> project_try_from rnd v' = project_try_from rnd v.
Proof. intros A. apply C66_reads. eapply project_reads_alike; [exact A|]. now apply C66_reads. Qed.

(** ** What is written *)
Definition button_of (s : screen) : smap android_view := match fab_raw s with Some x => [(sc_layout_name s, x)] | None => [] end.
Lemma put_screens_exact l : forall lgs lays fabs lgs' lays' fabs', put_screens l lgs lays fabs = Ok (lgs', lays', fabs') ->
  NoDup (map fst lgs ++ map sc_java_name l) -> NoDup (map fst lays ++ map sc_layout_name l) -> NoDup (map fst fabs ++ map sc_layout_name l) ->
  exists ls, Forall2 (fun s lg => screen_logic_of s = Ok lg) l ls /\ lgs' = lgs ++ combine (map sc_java_name l) ls /\
    lays' = lays ++ map (fun s => (sc_layout_name s, flatten_views (sc_layout s) None None)) l /\ fabs' = fabs ++ flat_map button_of l.
Proof.
  induction l as [|s l IH]; intros lgs lays fabs lgs' lays' fabs' H N1 N2 N3; rewrite put_screens_eq in H.
  - injection H as <- <- <-. exists []. rewrite !app_nil_r. repeat split. constructor.
  - apply bind_ok in H as (lg & L & H). cbn [map] in N1, N2, N3.
    pose proof (NoDup_remove_2 _ _ _ N1) as M1. pose proof (NoDup_remove_2 _ _ _ N2) as M2. pose proof (NoDup_remove_2 _ _ _ N3) as M3.
    rewrite in_app_iff in M1, M2, M3.
    rewrite !sinsert_notin in H by tauto.
    assert (E3 : match fab_raw s with Some x => sinsert (sc_layout_name s) x fabs | None => fabs end = fabs ++ button_of s).
    { unfold button_of. destruct (fab_raw s); [apply sinsert_notin; tauto|now rewrite app_nil_r]. }
    rewrite E3 in H. apply IH in H as (ls & F & -> & -> & ->).
    + exists (lg :: ls). split; [constructor; auto|]. cbn [map combine flat_map]. rewrite <- !app_assoc. auto.
    + rewrite map_app. cbn [map fst]. rewrite <- app_assoc. exact N1.
    + rewrite map_app. cbn [map fst]. rewrite <- app_assoc. exact N2.
    + unfold button_of. destruct (fab_raw s).
      * rewrite map_app. cbn [map fst]. rewrite <- app_assoc. exact N3.
      * rewrite app_nil_r. now apply NoDup_remove_1 in N3.
Qed.
Lemma put_custom_views_exact l : forall lays, NoDup (map fst lays ++ map cv_res_name l) ->
  put_custom_views l lays = lays ++ map (fun c => (cv_res_name c, flatten_views (cv_layout c) None None)) l.
Proof.
  induction l as [|c l IH]; intros lays N; [now rewrite app_nil_r|]. cbn [map] in *.
  change (put_custom_views (c :: l) lays) with (put_custom_views l (sinsert (cv_res_name c) (flatten_views (cv_layout c) None None) lays)).
  pose proof (NoDup_remove_2 _ _ _ N) as M. rewrite in_app_iff in M. rewrite sinsert_notin by tauto. rewrite IH, <- app_assoc; [reflexivity|].
  rewrite map_app. cbn [map fst]. rewrite <- app_assoc. exact N.
Qed.
Definition named_layouts (p : sw_project) : list (str * list aview) :=
  map (fun s => (sc_layout_name s, sc_layout s)) (sp_screens p) ++ map (fun c => (cv_res_name c, cv_layout c)) (sp_custom_views p).
Lemma into_exact p q : project_into p = Ok q ->
  NoDup (map sc_layout_name (sp_screens p) ++ map cv_res_name (sp_custom_views p)) -> NoDup (map sc_java_name (sp_screens p)) ->
  exists ls, Forall2 (fun s lg => screen_logic_of s = Ok lg) (sp_screens p) ls /\ pp_logic q = combine (map sc_java_name (sp_screens p)) ls /\
    vw_layouts (pp_view q) = map (fun nl => (fst nl, flatten_views (snd nl) None None)) (named_layouts p) /\
    vw_fabs (pp_view q) = flat_map button_of (sp_screens p).
Proof.
  intros H N1 N2. apply into_inv in H as (lays & _ & _ & _ & S & _ & _ & _ & V & _).
  destruct (put_screens_exact _ _ _ _ _ _ _ S) as (ls & F & E1 & E2 & E3); cbn [map app]; auto; [apply (NoDup_app_inv _ _ N1)..|].
  exists ls. split; [exact F|]. split; [exact E1|]. split; [|exact E3]. rewrite V, put_custom_views_exact.
  - rewrite E2. unfold named_layouts. rewrite map_app, !map_map. reflexivity.
  - rewrite E2. cbn [app]. rewrite map_map. cbn [fst]. rewrite map_ext with (g := sc_layout_name) by reflexivity. exact N1.
Qed.
Lemma flatten_nil l : flatten_views l None None = [] <-> l = [].
Proof. unfold flatten_views. destruct l; cbn; split; auto; discriminate. Qed.

(** ** It fits its types *)
Lemma logic_chars_in c s : forall b, In c (logic_chars b s) -> exists d, In d s /\ (c = d \/ c = to_ascii_uppercase d).
Proof.
  induction s as [|x s IH]; intros b; cbn [logic_chars]; [intros []|]. destruct (x =? UNDERSCORE); [|destruct b].
  - intros I. apply IH in I as (d & I & E). exists d. split; [now right|exact E].
  - intros [<-|I]; [exists x; split; [now left|now right]|]. apply IH in I as (d & I & E). exists d. split; [now right|exact E].
  - intros [<-|I]; [exists x; split; [now left|now left]|]. apply IH in I as (d & I & E). exists d. split; [now right|exact E].
Qed.
Lemma java_name_chars c n : c = 10 \/ c = 46 -> In c (view_name_to_logic n) -> In c n.
Proof.
  intros C I. unfold view_name_to_logic in I. apply in_app_or in I as [I|I].
  - apply logic_chars_in in I as (d & I & [->|E]); [exact I|]. unfold to_ascii_uppercase in E. destruct ((_ <=? d) && (d <=? _))%bool eqn:R; [|congruence].
    apply andb_prop in R as [R1 R2]. apply N.leb_le in R1, R2. lia.
  - exfalso. cbn in I. destruct C as [-> | ->]; intuition discriminate.
Qed.
Lemma java_name_line n : file_name n -> one_line_name (view_name_to_logic n).
Proof.
  intros [A B]. split; [intros I; apply A, java_name_chars; auto|]. intros a b E. apply B, java_name_chars; [auto|]. rewrite E. apply in_or_app. right. now left.
Qed.
Lemma ends_well_app a b : ends_well b -> b <> [] -> ends_well (a ++ b).
Proof.
  intros E N x w H. destruct b as [|y b] using rev_ind; [congruence|]. rewrite app_assoc in H. apply app_inj_tail in H as [_ <-]. now apply (E b).
Qed.
Lemma ends_well_name a n : ends_well n -> ends_well (a ++ lit "_" ++ n).
Proof.
  intros E. apply ends_well_app; [|discriminate]. destruct n as [|c n].
  - intros x w H. destruct x as [|y [|z x]]; inversion H. reflexivity.
  - change (ends_well (lit "_" ++ c :: n)). apply ends_well_app; [exact E|discriminate].
Qed.
Lemma ins_all_nodup W : forall bc, NoDup (map fst bc) -> NoDup (map fst (ins_all W bc)).
Proof.
  induction W as [|[k c] W IH]; intros bc N; [exact N|]. cbn. change (NoDup (map fst (ins_all W (sinsert k c bc)))). now apply IH, sinsert_nodup.
Qed.
Lemma in_ins_all k c W : In (k, c) (ins_all W []) -> In (k, c) W.
Proof.
  intros I. apply Str.sget_in in I; [|apply ins_all_nodup; constructor]. assert (K : In k (map fst W)).
  { destruct (in_dec (list_eq_dec N.eq_dec) k (map fst W)) as [K|K]; [exact K|]. now rewrite ins_all_notin in I. }
  induction W as [|[x d] W IH] using rev_ind; [destruct K|]. rewrite ins_all_app in I. cbn in I. change (sget k (sinsert x d (ins_all W [])) = Some c) in I.
  destruct (list_eq_dec N.eq_dec k x) as [->|Ne].
  - rewrite sget_insert_same in I. injection I as ->. apply in_or_app. right. now left.
  - rewrite sget_insert_other in I by exact Ne. apply in_or_app. left. apply IH; [exact I|].
    rewrite map_app in K. apply in_app_or in K as [K|[K|[]]]; [exact K|]. cbn in K. congruence.
Qed.
Lemma in_kbc k c l cs : Forall2 writes l cs -> In (k, c) (kbc l cs) -> exists y, In y l /\ fst y = k /\ writes y c.
Proof.
  intros F. unfold kbc. induction F as [|y d l cs W F IH]; cbn; [intros []|]. intros [E|I].
  - injection E as <- <-. eauto.
  - apply IH in I as (z & I & H). eauto.
Qed.
Lemma cell_fits s y : screen_fits s -> In y (cells s) -> P_Logic.container_name (fst y) /\ ends_well (fst y) /\ code_fits (snd y).
Proof.
  intros (_ & _ & _ & _ & _ & E & M & _) I. rewrite Forall_forall in E, M. apply in_app_or in I as [I|I]; apply in_map_iff in I as (x & <- & I).
  - destruct (E x I) as (A & B & _ & D). unfold ecell. cbn [fst snd]. pose proof (proj1 (proj1 (C42_container x (get_block_container_id x) [])) eq_refl) as CN.
    split; [now apply A|]. split; [|exact D]. unfold SpecScreen.container_name in CN. destruct (ae_type x).
    1-2: rewrite CN; now apply ends_well_name.
    destruct CN as [[_ CN]|[_ CN]]; rewrite CN; [|now apply ends_well_name].
    intros a w H. replace (lit "onCreate_initializeLogic") with (lit "onCreate_initializeLogi" ++ [99]) in H by reflexivity. apply app_inj_tail in H as [_ <-]. reflexivity.
  - destruct (M x I) as (A & _ & _ & _ & D). unfold mcell. cbn [fst snd]. split; [exact A|]. split; [|exact D]. unfold more_block_container.
    apply ends_well_app; [|discriminate]. intros a w H. replace (lit "_moreBlock") with (lit "_moreBloc" ++ [107]) in H by reflexivity. apply app_inj_tail in H as [_ <-]. reflexivity.
Qed.
Lemma raw_more_blocks_keys l : map fst (raw_more_blocks l) = map fst l.
Proof. unfold raw_more_blocks. rewrite map_map. now apply map_ext. Qed.
Lemma component_fits k id : component_typed (into_parser_component k id).
Proof. unfold component_typed. change (2 ^ 8) with 256. destruct k; cbn; lia. Qed.
Lemma event_typed_raw e : event_fits e -> event_typed (raw_event e).
Proof.
  intros (_ & _ & T & _). unfold event_typed, raw_event, into_parser_event. change (2 ^ 8) with 256 in *. cbn [fst].
  destruct (ae_type e) as [|id t|] eqn:E; cbn; [lia| |lia]. split; [lia|]. apply (T id). reflexivity.
Qed.
(** whatever becomes of the code *)
Definition filed_screen (s : screen) : Prop :=
  sc_java_name s = view_name_to_logic (sc_layout_name s) /\ NoDup (map fst (sc_more_blocks s)) /\ Forall (fun kv => am_name (snd kv) = fst kv) (sc_more_blocks s).
Definition filed_project (p : sw_project) : Prop :=
  Forall filed_screen (sp_screens p) /\ NoDup (map sc_layout_name (sp_screens p) ++ map cv_res_name (sp_custom_views p)) /\ NoDup (map sc_java_name (sp_screens p)).
Lemma ready_filed p : ready_project p -> filed_project p.
Proof.
  intros (RS & _ & N1 & N2). split; [|auto]. eapply Forall_impl; [|exact RS]. intros s (J & NM & _ & (GM & _) & _). split; [exact J|]. split; [exact NM|].
  eapply Forall_impl; [|exact GM]. intros kv (E & _). exact E.
Qed.
Lemma screen_fits_typed s lg : screen_fits s -> filed_screen s -> screen_logic_of s = Ok lg -> screen_typed lg.
Proof.
  intros SF (J & NM & GM) H. apply screen_logic_iff in H as (cs & W & ->). pose proof SF as (FN & _ & _ & PV & PL & EF & MF & M1 & M2).
  assert (IN : forall k c, In (k, c) (ins_all (kbc (cells s) cs) []) -> exists y, In y (cells s) /\ fst y = k /\ writes y c).
  { intros k c I. apply in_ins_all in I. eapply in_kbc; eauto. }
  unfold screen_typed, logic_with. cbn [sl_name sl_block_containers sl_variables sl_list_variables sl_components sl_events sl_more_blocks].
  split; [rewrite J; now apply java_name_line|]. split; [intros ? [= <-]; exact PV|]. split; [intros ? [= <-]; exact PL|].
  split; [intros ? [= <-]; apply Forall_map, Forall_forall; intros; apply component_fits|].
  split.
  { intros ? [= <-]. unfold raw_events. apply Forall_map. rewrite Forall_forall in *. intros e I. apply filter_In in I as [I _]. now apply event_typed_raw, EF. }
  split; [|split; [|split]].
  - intros ? [= <-]. rewrite scollect_nodup by now rewrite raw_more_blocks_keys. split; [split; [|split]|split].
    + now rewrite raw_more_blocks_keys.
    + unfold raw_more_blocks. apply Forall_map. rewrite Forall_forall in *. intros kv I. cbn [fst snd into_parser_more_block mb_id].
      pose proof (GM kv I) as E. destruct (MF kv I) as (_ & NN & _). auto.
    + intros r k x t c E L. destruct (sc_more_blocks s) as [|[k' m] l] eqn:El using rev_ind; [destruct r; discriminate E|].
      unfold raw_more_blocks in E. rewrite map_app in E. cbn [map] in E. apply app_inj_tail in E as [_ E]. injection E as -> <-. cbn in L.
      eapply (M2 l k m eq_refl). exact L.
    + unfold raw_more_blocks. apply Forall_map. rewrite Forall_forall in *. intros kv I. cbn [fst snd into_parser_more_block mb_id mb_spec].
      destruct (MF kv I) as (_ & _ & N58 & NS & _). auto.
    + intros k x r c n E L. destruct (sc_more_blocks s) as [|[k' m] l]; [discriminate E|]. cbn in E. injection E as <- _ _. eapply (M1 k' m l c n eq_refl L).
  - apply ins_all_nodup. constructor.
  - apply Forall_forall. intros [k c] I. apply IN in I as (y & I & <- & Wr). destruct (cell_fits s y SF I) as (A & _ & D). cbn [fst snd]. split; [exact A|].
    apply D. exact Wr.
  - intros r k a w E L. assert (I : In (k, []) (ins_all (kbc (cells s) cs) [])) by (rewrite E; apply in_or_app; right; now left).
    apply IN in I as (y & I & <- & _). destruct (cell_fits s y SF I) as (_ & A & _). eapply A. exact L.
Qed.
Lemma no_containers s lg : screen_logic_of s = Ok lg -> (sl_block_containers lg = [] <-> ~ has_code s).
Proof.
  intros H. apply screen_logic_iff in H as (cs & W & ->). unfold logic_with. cbn [sl_block_containers]. unfold has_code, cells in *. split.
  - intros E C. assert (K : exists k, In k (map fst (map ecell (sc_events s) ++ map mcell (sc_more_blocks s)))).
    { destruct C as [C|C]; [destruct (sc_events s)|destruct (sc_more_blocks s)]; try congruence; eexists; rewrite map_app; apply in_or_app; [left|right]; left; reflexivity. }
    destruct K as (k & K). apply (mem_written _ cs k W) in K. rewrite E in K. discriminate.
  - intros C. destruct (sc_events s); [|elim C; left; discriminate]. destruct (sc_more_blocks s); [|elim C; right; discriminate]. inversion W. reflexivity.
Qed.
Lemma combine_names l ls : Forall2 (fun s lg => screen_logic_of s = Ok lg) l ls -> map fst (combine (map sc_java_name l) ls) = map sc_java_name l.
Proof. induction 1; cbn; [reflexivity|]. now f_equal. Qed.
Lemma logic_name s lg : screen_logic_of s = Ok lg -> sl_name lg = sc_java_name s /\ sl_variables lg <> None.
Proof. intros H. apply screen_logic_iff in H as (cs & _ & ->). split; [reflexivity|discriminate]. Qed.
Lemma button_in s n x : In (n, x) (button_of s) -> n = sc_layout_name s /\ exists v, sc_fab s = Some v /\ fab_of v = Ok x.
Proof.
  unfold button_of, fab_raw. destruct (sc_fab s) as [[v ch]|]; [|intros []]. cbn [option_map vnode]. intros [E|[]]. injection E as <- <-. split; [reflexivity|].
  eexists. split; [reflexivity|]. apply fab_of_ok.
Qed.
Lemma filed_typed p q dt : filed_project p -> project_fits p dt -> project_into p = Ok q -> typed_parsed q dt.
Proof.
  intros (RS & N1 & N2) (A1 & A2 & A3 & A4 & A5 & D & SF & CF) H. destruct (into_exact p q H N1 N2) as (ls & F & EL & EV & EB).
  apply into_inv in H as (lays & imf & sof & fof & _ & R1 & R2 & R3 & _ & EP & ELB & _).
  split; [|split; [|split; [|split; [|split]]]].
  - rewrite EP. unfold in_range, project_of. cbn. rewrite !Forall_cons_iff in A5. tauto.
  - rewrite EP. exact D.
  - rewrite ELB. intros x [<-|[<-|[<-|[<-|[]]]]]; unfold library_of; cbn; try lia; [destruct (lb_firebase _)|destruct (lb_ad_mob _)|destruct (lb_google_map _)]; cbn; lia.
  - apply put_resources_iff in R1 as (? & _ & -> & _). apply put_resources_iff in R2 as (? & _ & -> & _). apply put_resources_iff in R3 as (? & _ & -> & _).
    rewrite !Forall_app. repeat split; apply Forall_map, Forall_forall; intros; cbn; lia.
  - rewrite Forall_forall in SF, CF. split; [|split; [|split]].
    + rewrite EV. unfold named_layouts. rewrite map_app, !map_map. apply Forall_app. split; apply Forall_map, Forall_forall; cbn [fst snd].
      * intros s I. destruct (SF s I) as ((P1 & P2) & V & _). split; [exact P1|]. split; [exact P2|]. apply Forall_forall. exact V.
      * intros c I. destruct (CF c I) as ((P1 & P2) & V). split; [exact P1|]. split; [exact P2|]. apply Forall_forall. exact V.
    + rewrite EB. apply Forall_forall. intros [n x] I. apply in_flat_map in I as (s & I & B). apply button_in in B as (-> & v & E & FB).
      destruct (SF s I) as ((P1 & P2) & _ & BF & _). cbn [fst snd]. split; [exact P1|]. split; [exact P2|]. now apply (BF v).
    + rewrite EV. unfold named_layouts. rewrite map_map, map_app, !map_map. exact N1.
    + rewrite EB. clear - N1. apply NoDup_app_inv in N1 as (N & _). induction (sp_screens p) as [|s l IH]; [constructor|]. cbn [map flat_map] in *.
      inversion N as [|? ? N3 N4]; subst. rewrite map_app. unfold button_of at 1. destruct (fab_raw s); [|now apply IH]. cbn. constructor; [|now apply IH].
      intros I. apply N3. apply in_map_iff in I as ([n x] & <- & I). apply in_flat_map in I as (s' & I & B). apply button_in in B as (-> & _). change (In (sc_layout_name s') (map sc_layout_name l)). now apply in_map.
  - rewrite EL. split; [now rewrite (combine_names _ _ F)|]. clear EL. revert RS SF. clear - F. induction F as [|s lg l ls L F IH]; intros RS SF; [constructor|].
    inversion RS; subst. inversion SF; subst. cbn. constructor; [|now apply IH]. cbn [fst snd]. split; [symmetry; now apply logic_name|]. eapply screen_fits_typed; eauto.
Qed.

Lemma fits_typed p q dt : ready_project p -> project_fits p dt -> project_into p = Ok q -> typed_parsed q dt.
Proof. intros RP. apply filed_typed. now apply ready_filed. Qed.

(** ** Screens without code *)
(** containers that the same code is read from *)
Definition same_code (bc bc' : smap block_container) : Prop := forall k, blocks_try_from (or_empty (sget k bc')) = blocks_try_from (or_empty (sget k bc)).
Lemma same_code_remove k bc bc' : same_code bc bc' -> same_code (sremove k bc) (sremove k bc').
Proof.
  intros S x. destruct (list_eq_dec N.eq_dec x k) as [->|Ne]; [now rewrite !sget_remove_same|]. rewrite !sget_remove_other by exact Ne. apply S.
Qed.
Lemma take_more_blocks_code l : forall bc bc', same_code bc bc' ->
  match take_more_blocks l bc, take_more_blocks l bc' with
  | Ok (ms, b), Ok (ms', b') => ms' = ms /\ same_code b b' | Err e, Err e' => e' = e | Panic, Panic => True | _, _ => False end.
Proof.
  induction l as [|[id mb] l IH]; intros bc bc' S; cbn [take_more_blocks]; [auto|].
  destruct (parse_wo_params (mb_spec mb)) as [sp| |]; cbn [map_err bind]; auto. unfold take_container.
  rewrite S. destruct (blocks_try_from (or_empty (sget (more_block_container id) bc))) as [c| |]; cbn [map_err bind]; auto.
  specialize (IH _ _ (same_code_remove (more_block_container id) _ _ S)).
  destruct (take_more_blocks l (sremove _ bc)) as [[ms b]| |], (take_more_blocks l (sremove _ bc')) as [[ms' b']| |]; cbn [bind]; auto.
  destruct IH as [-> IH]. auto.
Qed.
Lemma take_events_code l : forall bc bc', same_code bc bc' -> take_events l bc' = take_events l bc.
Proof.
  induction l as [|e l IH]; intros bc bc' S; cbn [take_events]; [auto|].
  destruct (event_try_from e) as [ev| |]; cbn [map_err bind]; auto. unfold take_container. rewrite S.
  destruct (blocks_try_from _) as [c| |]; cbn [map_err bind]; auto. now rewrite (IH _ _ (same_code_remove _ _ _ S)).
Qed.
Lemma same_code_reads ln jn fe ve fab le le' : same_code (sl_block_containers le) (sl_block_containers le') ->
  smem INITIALIZE (sl_block_containers le') = smem INITIALIZE (sl_block_containers le) ->
  sl_variables le' = sl_variables le -> sl_list_variables le' = sl_list_variables le -> sl_components le' = sl_components le ->
  sl_events le' = sl_events le -> sl_more_blocks le' = sl_more_blocks le ->
  screen_from_parsed ln jn fe ve le' fab = screen_from_parsed ln jn fe ve le fab.
Proof.
  intros S I E1 E2 E3 E4 E5. unfold screen_from_parsed, with_on_create. rewrite I, E1, E2, E3, E4, E5.
  destruct (map_err SeLayout (parse_raw_layout ve)); cbn [bind]; auto.
  pose proof (take_more_blocks_code (or_empty (sl_more_blocks le)) _ _ S) as T.
  destruct (take_more_blocks _ (sl_block_containers le)) as [[ms b]| |], (take_more_blocks _ (sl_block_containers le')) as [[ms' b']| |]; cbn [bind]; try contradiction; try congruence.
  destruct T as [-> T]. destruct (map_err SeUnknownComponent _); cbn [bind]; auto. now rewrite (take_events_code _ _ _ T).
Qed.
Lemma no_initialize s : on_create_first (sc_events s) -> (forall e, In e (sc_events s) -> ae_name e <> lit "onCreate") -> ~ In INITIALIZE (map fst (cells s)).
Proof.
  intros OC NE I. unfold cells in I. rewrite map_app, !map_map in I. apply in_app_or in I as [I|I]; apply in_map_iff in I as (x & E & I).
  - destruct OC as [OC|(e & r & El & Ne & _)]; [destruct (OC x I) as [_ K]; contradiction|]. apply (NE e); [rewrite El; now left|exact Ne].
  - cbn in E. unfold more_block_container in E. apply (f_equal (@rev N)) in E. rewrite rev_app_distr in E. cbn in E. discriminate.
Qed.
Lemma idle_reads s lg ln jn fe ve fab : good_screen s -> idle s -> screen_logic_of s = Ok lg ->
  screen_from_parsed ln jn fe ve (without_containers lg) fab = screen_from_parsed ln jn fe ve lg fab.
Proof.
  intros (_ & _ & _ & OC) [IE IM] H. apply screen_logic_iff in H as (cs & W & ->). apply same_code_reads; try reflexivity; cbn [sl_block_containers without_containers logic_with].
  - intros k. destruct (sget k (ins_all (kbc (cells s) cs) [])) as [c|] eqn:G; [|reflexivity].
    assert (I : In (k, c) (ins_all (kbc (cells s) cs) [])) by now apply P_Loading.sget_in.
    apply in_ins_all, (in_kbc _ _ _ _ W) in I as (y & I & _ & Wr). unfold writes in Wr. assert (E : snd y = []).
    { unfold cells in I. apply in_app_or in I as [I|I]; apply in_map_iff in I as (x & <- & I); cbn; [now apply IE|]. destruct x as [n m]. now apply (IM n). }
    rewrite E in Wr. cbn in Wr. injection Wr as <-. reflexivity.
  - destruct (smem INITIALIZE (ins_all (kbc (cells s) cs) [])) eqn:M; [|reflexivity]. exfalso. apply (mem_written _ _ _ W) in M. revert M.
    apply no_initialize; [exact OC|]. intros e I. now apply IE.
Qed.
Lemma in_scollect {V} (kv : str * V) l : In kv (scollect l) -> In kv l.
Proof.
  induction l as [|[k v] l IH] using rev_ind; [intros []|]. rewrite scollect_app. cbn [fold_left fst snd]. unfold sinsert, linsert. intros I. apply in_or_app.
  apply in_app_or in I as [I|I]; [left; apply IH|now right]. revert I. generalize (scollect l). intros m. induction m as [|[k' v'] m IHm]; cbn; [auto|].
  destruct (str_eqb k k'); cbn; tauto.
Qed.
Lemma take_events_idle l : forall es, take_events l [] = Ok es -> Forall2 (fun r e => ae_name e = ev_name r /\ ae_code e = []) l es.
Proof.
  induction l as [|r l IH]; intros es H; cbn [take_events] in H; [injection H as <-; constructor|].
  apply bind_ok in H as (e & E & H). apply map_err_ok in E. cbn in H. apply bind_ok in H as (es' & H & K). injection K as <-.
  constructor; [|now apply IH]. cbn. split; [|reflexivity]. unfold event_try_from in E. apply bind_ok in E as (t & _ & E). now injection E as <-.
Qed.
Lemma take_more_blocks_idle l : forall ms bc, take_more_blocks l [] = Ok (ms, bc) -> bc = [] /\ forall k m, In (k, m) ms -> am_code m = [].
Proof.
  induction l as [|[id mb] l IH]; intros ms bc H; cbn [take_more_blocks] in H; [injection H as <- <-; split; [reflexivity|intros k m []]|].
  apply bind_ok in H as (sp & E & H). cbn in H. apply bind_ok in H as ([ms' bc'] & H & K). injection K as <- <-. apply IH in H as [-> H]. split; [reflexivity|].
  intros k m [J|J]; [injection J as <- <-; reflexivity|eauto].
Qed.
Lemma forall2_right {A B} (P : A -> B -> Prop) l m y : Forall2 P l m -> In y m -> exists x, In x l /\ P x y.
Proof.
  induction 1 as [|x z l m X F IH]; [intros []|]. intros [<-|I]; [exists x; split; [now left|exact X]|]. destruct (IH I) as (x' & I' & X'). exists x'. split; [now right|exact X'].
Qed.
Lemma read_idle s lg ln jn fe ve fab s' : NoDup (map fst (sc_more_blocks s)) -> screen_logic_of s = Ok lg ->
  screen_from_parsed ln jn fe ve (without_containers lg) fab = Ok s' -> same_logic s s' -> idle s.
Proof.
  intros NM H R (_ & _ & SM & _ & SE). apply screen_logic_iff in H as (cs & _ & ->). unfold screen_from_parsed in R. apply bind_ok in R as (views & _ & R).
  apply bind_ok in R as ([ms bc] & M & R). apply bind_ok in R as (ks & _ & R). apply bind_ok in R as (es & EV & R). injection R as <-. cbn [sc_more_blocks sc_events] in SM, SE.
  cbn [sl_block_containers without_containers] in M. apply take_more_blocks_idle in M as [-> M]. apply take_events_idle in EV. unfold with_on_create in EV. cbn in EV. split.
  - intros e I. assert (K : exists r, In r (raw_events (sc_events s)) /\ ae_name e = ev_name r /\ ae_code e = []).
    { rewrite <- SE in I. exact (forall2_right _ _ _ _ EV I). }
    destruct K as (r & K & -> & C). split; [|exact C]. unfold raw_events in K. apply in_map_iff in K as (x & <- & K). apply filter_In in K as [_ K]. rewrite raw_event_name.
    unfold not_on_create in K. intros E. rewrite E in K. discriminate.
  - intros k m I. rewrite <- SM in I. apply (M k m). now apply in_scollect in I.
Qed.

(** ** Reading what is written *)
Lemma first_without l : exists a b, l = a ++ b /\ Forall has_code a /\ forall y r, b = y :: r -> ~ has_code y.
Proof.
  induction l as [|s l (a & b & -> & A & B)]; [exists [], []; repeat split; auto; discriminate|].
  assert (D : has_code s \/ ~ has_code s) by (unfold has_code; destruct (sc_events s), (sc_more_blocks s); try (left; left; discriminate); try (left; right; discriminate); right; intuition).
  destruct D as [D|D]; [exists (s :: a), b; auto|]. exists [], (s :: a ++ b). repeat split; auto. now intros y r [= <- _].
Qed.
Lemma in_combine_logic l ls s lg : Forall2 (fun s lg => screen_logic_of s = Ok lg) l ls -> In s l -> screen_logic_of s = Ok lg -> In (sc_java_name s, lg) (combine (map sc_java_name l) ls).
Proof. induction 1 as [|x y l ls X F IH]; [intros []|]. cbn. intros [->|I] E; [left; congruence|right; auto]. Qed.
Definition cut_all (l : logic) : logic := map (fun kv => (fst kv, without_containers (snd kv))) l.
Lemma filed_reads mv p q dt : filed_project p -> project_fits p dt -> project_into p = Ok q ->
  exists a b g, sp_screens p = a ++ b /\ Forall has_code a /\ (forall y r, b = y :: r -> ~ has_code y) /\
    logic_parse mv (logic_reconstruct (pp_logic q)) = Ok g /\
    (forall s, In s (a ++ b) -> exists lg, screen_logic_of s = Ok lg /\ sget (sc_java_name s) (pp_logic q) = Some lg /\
       (In s a -> sget (sc_java_name s) g = Some lg) /\ (In s b -> sget (sc_java_name s) g = Some (without_containers lg))) /\
    (forall k, ~ In k (map sc_java_name (a ++ b)) -> sget k g = None /\ sget k (pp_logic q) = None).
Proof.
  intros RP PF H. pose proof (filed_typed p q dt RP PF H) as (_ & _ & _ & _ & _ & T). destruct RP as (RS & N1 & N2).
  destruct (into_exact p q H N1 N2) as (ls & F & EL & _). destruct (first_without (sp_screens p)) as (a & b & AB & CA & CB). exists a, b. rewrite AB in *.
  apply Forall2_app_inv_l in F as (la & lb & Fa & Fb & ->).
  assert (EC : combine (map sc_java_name (a ++ b)) (la ++ lb) = combine (map sc_java_name a) la ++ combine (map sc_java_name b) lb).
  { rewrite map_app. clear - Fa. induction Fa as [|s lg l ls L F IH]; cbn; [reflexivity|]. now rewrite IH. }
  rewrite EC in EL. set (A := combine (map sc_java_name a) la) in *. set (B := combine (map sc_java_name b) lb) in *.
  assert (KA : map fst A = map sc_java_name a) by now apply combine_names. assert (KB : map fst B = map sc_java_name b) by now apply combine_names.
  assert (KC : map fst (cut_all B) = map sc_java_name b) by (unfold cut_all; rewrite map_map; cbn [fst]; rewrite <- KB; reflexivity).
  assert (G : exists g, logic_parse mv (logic_reconstruct (pp_logic q)) = Ok g /\ Permutation g (A ++ cut_all B)).
  { assert (VS : forall x, In x (map snd (A ++ B)) -> sl_variables x <> None).
    { intros x I. apply in_map_iff in I as ([k y] & <- & I). cbn. unfold A, B in I.
      assert (Q : forall l ls, Forall2 (fun s lg => screen_logic_of s = Ok lg) l ls -> In (k, y) (combine (map sc_java_name l) ls) -> sl_variables y <> None).
      { clear. induction 1 as [|x z l ls X F IH]; [intros []|]. cbn. intros [E|I]; [injection E as _ <-; now apply (logic_name x)|auto]. }
      apply in_app_or in I as [I|I]; eauto. }
    destruct (A ++ B) as [|kv rest] eqn:EAB.
    - apply app_eq_nil in EAB as [-> ->]. rewrite EL in *. destruct (C22_roundtrip_partial mv [] T) as (g & P1 & P2); [constructor|exists [], []; auto|]. exists g. auto.
    - rewrite <- EAB in *. destruct (C22_lost mv (pp_logic q) A B T EL) as (g & P1 & P2).
      + unfold A. clear - Fa CA. induction Fa as [|s lg l ls L F IH]; cbn; constructor; inversion CA; subst; auto. cbn [snd]. intros E. now apply (no_containers s lg L) in E.
      + intros y r E. unfold B in E. destruct Fb as [|s lg l ls L Fb]; [discriminate|]. cbn in E. injection E as <- _. cbn [snd]. apply (no_containers s lg L). now apply (CB s l).
      + left. exists kv. split; [rewrite EL, EAB; now left|]. specialize (VS (snd kv)). unfold has_pool. destruct (sl_variables (snd kv)); [reflexivity|]. elim VS; [|reflexivity].
        rewrite EAB. now left.
      + exists g. split; [exact P1|]. fold (cut_all B) in P2. replace (A ++ cut_all B) with (filter (fun kv => has_section (snd kv)) (A ++ cut_all B)); [exact P2|].
        apply filter_all. intros x I. unfold has_section, has_pool. assert (V : sl_variables (snd x) <> None).
        { apply in_app_or in I as [I|I]; [apply VS; rewrite map_app; apply in_or_app; left; now apply in_map|].
          unfold cut_all in I. apply in_map_iff in I as (z & <- & I). cbn. apply VS. rewrite map_app. apply in_or_app. right. now apply in_map. }
        destruct (sl_variables (snd x)); [reflexivity|congruence]. }
  destruct G as (g & P & PG). exists g. split; [reflexivity|]. split; [exact CA|]. split; [exact CB|]. split; [exact P|].
  assert (NQ : NoDup (map fst (A ++ B))) by (rewrite map_app, KA, KB, <- map_app; exact N2).
  assert (NC : NoDup (map fst (A ++ cut_all B))) by (rewrite map_app, KA, KC, <- map_app; exact N2).
  assert (GG : forall k, sget k g = sget k (A ++ cut_all B)) by (intros k; symmetry; apply Str.sget_perm; [exact NC|now apply Permutation_sym]).
  split.
  - intros s I. assert (exists lg, screen_logic_of s = Ok lg) as (lg & L).
    { pose proof (Forall2_app Fa Fb) as FF. clear - FF I. induction FF as [|x y l ls X F IH]; [destruct I|]. destruct I as [<-|I]; eauto. }
    exists lg. split; [exact L|]. rewrite EL, GG. split; [|split].
    + apply Str.sget_in; [exact NQ|]. apply in_app_or in I as [I|I]; apply in_or_app; [left|right]; now apply in_combine_logic.
    + intros Ia. apply Str.sget_in; [exact NC|]. apply in_or_app. left. now apply in_combine_logic.
    + intros Ib. apply Str.sget_in; [exact NC|]. apply in_or_app. right. unfold cut_all. apply in_map_iff. exists (sc_java_name s, lg). split; [reflexivity|]. now apply in_combine_logic.
  - intros k NI. rewrite GG, EL. split; apply sget_notin; rewrite map_app, KA, ?KB, ?KC, <- map_app; exact NI.
Qed.
Lemma logic_reads mv p q dt : ready_project p -> project_fits p dt -> project_into p = Ok q ->
  exists a b g, sp_screens p = a ++ b /\ Forall has_code a /\ (forall y r, b = y :: r -> ~ has_code y) /\
    logic_parse mv (logic_reconstruct (pp_logic q)) = Ok g /\
    (forall s, In s (a ++ b) -> exists lg, screen_logic_of s = Ok lg /\ sget (sc_java_name s) (pp_logic q) = Some lg /\
       (In s a -> sget (sc_java_name s) g = Some lg) /\ (In s b -> sget (sc_java_name s) g = Some (without_containers lg))) /\
    (forall k, ~ In k (map sc_java_name (a ++ b)) -> sget k g = None /\ sget k (pp_logic q) = None).
Proof. intros RP. apply filed_reads. now apply ready_filed. Qed.
Lemma layouts_named p : all_layouts p = map snd (named_layouts p).
Proof. unfold all_layouts, named_layouts. rewrite map_app, !map_map. reflexivity. Qed.
Lemma apart_view p q : ready_project p -> project_into p = Ok q ->
  (forall a l m b, all_layouts p = a ++ l :: m :: b -> l = []) ->
  ((forall s, In s (sp_screens p) -> sc_fab s = None) \/ exists a x l, all_layouts p = a ++ [x :: l]) -> separable_view (pp_view q).
Proof.
  intros (_ & _ & N1 & N2) H SL FB. destruct (into_exact p q H N1 N2) as (ls & _ & _ & EV & EB). pose proof (layouts_named p) as ALL. split.
  - intros pre x y post E. rewrite EV in E. apply map_eq_app in E as (m1 & m2 & E1 & <- & E2). destruct m2 as [|x' [|y' m2]]; try discriminate E2.
    cbn [map] in E2. injection E2 as <- <- <-. cbn [snd]. apply flatten_nil. apply (SL (map snd m1) (snd x') (snd y') (map snd m2)). rewrite ALL, E1, map_app. reflexivity.
  - destruct FB as [NB|(pre & x & l & E)].
    + left. rewrite EB. clear - NB. induction (sp_screens p) as [|s l IH]; [reflexivity|]. cbn [flat_map]. rewrite IH by (intros; apply NB; now right).
      unfold button_of, fab_raw. rewrite (NB s) by now left. reflexivity.
    + right. rewrite ALL in E. apply map_eq_app in E as (m1 & m2 & E1 & <- & E2). destruct m2 as [|[n l'] [|? ?]]; try discriminate E2. injection E2 as ->.
      rewrite EV, E1, map_app. cbn [map fst snd]. destruct (flatten_views (x :: l) None None) as [|y r] eqn:FE; [apply flatten_nil in FE; discriminate|].
      exists (map (fun nl => (fst nl, flatten_views (snd nl) None None)) m1), n, y, r. reflexivity.
Qed.
(** the parts that are always read back *)
Lemma plain_parts p q dt r : ready_project p -> project_fits p dt -> project_into p = Ok q -> into_raw q r ->
  project_parse (rp_project r) = (let* t := date_de (date_text dt) in Ok (with_created t (pp_project q))) /\ rp_file r = file_reconstruct (pp_file q) /\
  library_parse (rp_library r) = Ok (pp_library q) /\ resource_parse (rp_resource r) = Ok (pp_resource q) /\
  rp_view r = view_reconstruct (pp_view q) /\ rp_logic r = logic_reconstruct (pp_logic q).
Proof.
  intros RP PF H [DA _]. pose proof (fits_typed p q dt RP PF H) as (R & D & L & RS & V & G). pose proof (project_back _ R) as P. rewrite D in P. destruct P as (s & E & PP).
  unfold data_files in DA. rewrite E in DA. cbn [bind] in DA. injection DA as D1 D2 D3 D4 D5 D6. rewrite <- D1, <- D2, <- D3, <- D4, <- D5, <- D6.
  split; [exact PP|]. split; [reflexivity|]. split; [apply C17_roundtrip; intros []; cbn [lib_field]; apply L; cbn; auto|]. split; [now apply C18_roundtrip|]. auto.
Qed.
Lemma reads_back mv ex p q dt r : ready_project p -> project_fits p dt -> told_apart p dt -> project_into p = Ok q ->
  (forall f, pp_resource_files q = Some f -> well_filed ex f /\ distinct_files f) -> into_raw q r ->
  exists v, parse_from mv ex r = Ok v /\ alike q v.
Proof.
  intros RP PF (TD & FS & SL & FB & AI) H WF W. destruct (plain_parts p q dt r RP PF H W) as (PP & D2 & LB & RB & D5 & D6).
  destruct (logic_reads mv p q dt RP PF H) as (a & b & g & AB & CA & CB & GB & GS & GN).
  pose proof (fits_typed p q dt RP PF H) as (R & D & _ & _ & V & _). apply (back_iff _ _ R D) in TD. rewrite TD in PP. cbn [bind] in PP. rewrite with_created_same in PP. pose proof (apart_view p q RP H SL FB) as SV.
  pose proof H as H0. apply into_inv in H0 as (lays & imf & sof & fof & _ & _ & _ & _ & _ & _ & _ & EA & EC & _).
  assert (X : exists o, match rp_resource_files r with None => o = None | Some ws => exists h, res_files_try_from ex ws = Ok h /\ o = Some h end /\ files_alike (pp_resource_files q) o).
  { destruct W as [_ RF]. destruct (pp_resource_files q) as [f|].
    - destruct (WF f eq_refl) as [WFf DF]. destruct RF as (ws & -> & RI). destruct (proj2 (files_back ex f ws DF RI) WFf) as (h & H1 & H2). exists (Some h). cbn. eauto.
    - rewrite RF. exists None. cbn. auto. }
  destruct X as (o & O1 & O2).
  exists {| pp_project := pp_project q; pp_file := pp_file q; pp_library := pp_library q; pp_resource := pp_resource q; pp_view := pp_view q; pp_logic := g; pp_resource_files := o |}.
  split.
  - apply parse_from_ok. cbn. rewrite D2, D5, D6. split; [exact PP|]. split; [|split; [exact LB|split; [exact RB|split; [now apply C20_exact|split; [exact GB|exact O1]]]]].
    apply C16_roundtrip_partial. rewrite EA, EC. destruct FS as [E|E]; [left; intros K; apply map_eq_nil in K; contradiction|right; now rewrite E].
  - repeat (split; [reflexivity|]). cbn. split; [|exact O2]. intros k. destruct (in_dec (list_eq_dec N.eq_dec) k (map sc_java_name (a ++ b))) as [I|I].
    + apply in_map_iff in I as (s & <- & I). destruct (GS s I) as (lg & L & G1 & G2 & G3). apply in_app_or in I as I'. destruct I' as [Ia|Ib].
      * left. now rewrite G1, G2.
      * right. exists lg, (without_containers lg). split; [exact G1|]. split; [now apply G3|]. split; [reflexivity|]. intros ln jn fe ve fab. apply (idle_reads s); [| |exact L].
        { destruct RP as (RS & _). rewrite Forall_forall in RS. apply RS. now rewrite AB. }
        destruct b as [|y r0]; [destruct Ib|]. pose proof (CB y r0 eq_refl) as NC. destruct Ib as [->|Ib].
        { unfold has_code in NC. split; [intros e Ie|intros k m Im].
          - destruct (sc_events s); [destruct Ie|elim NC; left; discriminate].
          - destruct (sc_more_blocks s); [destruct Im|elim NC; right; discriminate]. }
        apply in_split in Ib as (c & d & ->). apply (AI a y c s d AB NC).
    + left. destruct (GN k I) as [-> ->]. reflexivity.
Qed.

Lemma custom_views_count rnd v p : project_try_from rnd v = Ok p -> length (sp_custom_views p) = length (f_custom_views (pp_file v)).
Proof.
  intros H. apply C66_reads in H. destruct H as (ss & _ & H). destruct ss as [ss| |]; cbn [after] in H; try discriminate H.
  destruct H as (cvs & C & H). destruct cvs as [cvs| |]; cbn [after] in H; try discriminate H.
  destruct H as (fb & _ & H). destruct fb as [fb| |]; cbn [after] in H; try discriminate H.
  destruct H as (am & _ & H). destruct am as [am| |]; cbn [after] in H; try discriminate H.
  destruct H as (gm & _ & H). destruct gm as [gm| |]; cbn [after] in H; try discriminate H.
  destruct H as (im & _ & H). destruct im as [im| |]; cbn [after] in H; try discriminate H.
  destruct H as (so & _ & H). destruct so as [so| |]; cbn [after] in H; try discriminate H.
  destruct H as (fo & _ & H). destruct fo as [fo| |]; cbn [after] in H; try discriminate H.
  destruct H as (c & _ & H). injection H as ->. cbn [sp_custom_views]. now apply in_order_ok in C as [-> _].
Qed.
Lemma forall2_at {A B} (P : A -> B -> Prop) a x b m y : Forall2 P (a ++ x :: b) m -> nth_error m (length a) = Some y -> P x y.
Proof.
  revert m. induction a as [|z a IH]; intros m F E; inversion F as [|? ? ? ? F1 F2]; subst; [injection E as <-; exact F1|]. eapply IH; [exact F2|exact E].
Qed.
Lemma apart_needed mv ex rnd p q dt r v p' : ready_project p -> project_fits p dt -> project_into p = Ok q -> into_raw q r ->
  parse_from mv ex r = Ok v -> project_try_from rnd v = Ok p' -> same_project p p' -> told_apart p dt.
Proof.
  intros RP PF H W K TF (SM & _ & _ & SS & SC). destruct (plain_parts p q dt r RP PF H W) as (PP & D2 & _ & _ & D5 & D6).
  apply parse_from_ok in K as (K1 & K2 & _ & _ & K5 & K6 & _). rewrite D2 in K2. rewrite D5 in K5. rewrite D6 in K6.
  pose proof (fits_typed p q dt RP PF H) as (RA & DA & _ & _ & V & _). pose proof RP as (RS & _ & N1 & N2). destruct (into_exact p q H N1 N2) as (ls & _ & _ & EV & EB).
  pose proof H as H0. apply into_inv in H0 as (lays & imf & sof & fof & _ & _ & _ & _ & _ & _ & _ & EA & EC & _).
  assert (FS : sp_screens p <> [] \/ sp_custom_views p = []).
  { destruct (sp_screens p) as [|s l]; [right|left; discriminate]. destruct (sp_custom_views p) as [|c l]; [reflexivity|]. exfalso.
    destruct (C16_refuted (pp_file q)) as [E _]; [now rewrite EA|rewrite EC; discriminate|]. rewrite K2 in E. injection E as E. apply custom_views_count in TF.
    rewrite E in TF. apply Forall2_len in SC. rewrite TF in SC. discriminate. }
  assert (EF : pp_file v = pp_file q).
  { rewrite C16_roundtrip_partial in K2; [congruence|]. rewrite EA, EC. destruct FS as [E|E]; [left; intros X; apply map_eq_nil in X; contradiction|right; now rewrite E]. }
  assert (EN : map view_name_to_logic (map fi_filename (map activity_of (sp_screens p))) = map sc_java_name (sp_screens p)).
  { rewrite !map_map. apply map_ext_in. intros s I. rewrite Forall_forall in RS. destruct (RS s I) as (J & _). now rewrite J. }
  pose proof (layouts_named p) as ALL.
  assert (SL : forall a l m b, all_layouts p = a ++ l :: m :: b -> l = []).
  { intros a l m b E. destruct l as [|x l]; [reflexivity|]. exfalso. rewrite ALL in E. apply map_eq_app in E as (m1 & m2 & E1 & <- & E2).
    destruct m2 as [|[n1 l1] [|[n2 l2] m2]]; try discriminate E2. injection E2 as -> -> <-. rewrite E1, map_app in EV. cbn [map fst snd] in EV.
    destruct (C20_two_layouts_refuted _ _ _ _ _ _ _ V EV) as (e & X); [now rewrite flatten_nil|congruence]. }
  split; [|split; [exact FS|split; [exact SL|split]]].
  - apply (back_iff _ _ RA DA). rewrite K1 in PP. destruct (date_de (date_text dt)) as [t| |]; try discriminate. cbn [bind] in PP. injection PP as PP. f_equal.
    pose proof (try_from_meta _ _ _ TF) as MT. rewrite PP, SM in MT. pose proof H as H1. apply into_inv in H1 as (? & ? & ? & ? & _ & _ & _ & _ & _ & EPJ & _). rewrite EPJ in *.
    apply (f_equal pj_date_created) in MT. exact MT.
  - destruct (all_layouts p) as [|[|x l] pre _] eqn:E using rev_ind.
    + left. unfold all_layouts in E. apply app_eq_nil in E as [E _]. apply map_eq_nil in E. rewrite E. intros s [].
    + left. intros s I. destruct (vw_fabs (pp_view q)) as [|f fs] eqn:EFA.
      * symmetry in EB. assert (B : button_of s = []) by (destruct (button_of s) as [|y m] eqn:B; [reflexivity|]; exfalso; assert (X : In y (flat_map button_of (sp_screens p))) by (apply in_flat_map; exists s; rewrite B; split; [exact I|now left]); now rewrite EB in X).
        unfold button_of, fab_raw in B. destruct (sc_fab s); [discriminate|reflexivity].
      * assert (Z : Forall (fun kv => snd kv = []) (vw_layouts (pp_view q))).
        { rewrite EV. apply Forall_map, Forall_forall. intros nl Inl. cbn [snd]. apply flatten_nil. assert (IA : In (snd nl) (pre ++ [[]])) by (rewrite ALL; now apply in_map).
          apply in_app_or in IA as [IA|[<-|[]]]; [|reflexivity]. apply in_split in IA as (u & w & ->). destruct w as [|y w]; eapply SL; rewrite <- app_assoc; reflexivity. }
        rewrite (C20_fabs_lost_refuted _ V Z) in K5 by congruence. injection K5 as K5. apply in_split in I as (a & b & AB).
        assert (EAct : f_activities (pp_file v) = map activity_of a ++ activity_of s :: map activity_of b) by (rewrite EF, EA, AB, map_app; reflexivity).
        destruct (C66_distinct _ _ _ _ _ _ TF EAct) as (s' & NT & _ & FA & _); [rewrite EF, EA, EN; exact N2|]. rewrite map_length in NT.
        rewrite <- K5 in FA. cbn in FA. rewrite AB in SS. pose proof (forall2_at _ _ _ _ _ _ SS NT) as (_ & _ & _ & SF). rewrite FA in SF. cbn in SF. destruct (sc_fab s); [contradiction|reflexivity].
    + right. eauto.
  - intros a s b t c AB NC. destruct (logic_reads mv p q dt RP PF H) as (a0 & b0 & g & AB0 & CA & _ & GB & GS & _). rewrite K6 in GB. injection GB as EG.
    assert (IT : In t b0).
    { rewrite AB0 in AB. apply app_eq_app in AB as (l & [[-> E]|[-> E]]).
      - destruct l as [|x l]; [cbn in E; rewrite <- E; right; apply in_or_app; right; now left|]. injection E as <- _. rewrite Forall_app in CA. destruct CA as [_ CA]. inversion CA. contradiction.
      - rewrite E. apply in_or_app. right. right. apply in_or_app. right. now left. }
    destruct (GS t) as (lg & L & _ & _ & G); [apply in_or_app; now right|]. specialize (G IT). rewrite <- EG in G.
    assert (AB' : sp_screens p = (a ++ s :: b) ++ t :: c) by (rewrite <- app_assoc; exact AB).
    assert (EAct : f_activities (pp_file v) = map activity_of (a ++ s :: b) ++ activity_of t :: map activity_of c) by (rewrite EF, EA, AB', map_app; reflexivity).
    destruct (C66_screen _ _ _ _ _ _ TF EAct) as (ve & le & fab & s' & NT & (_ & (o & U & EO) & _) & R). rewrite map_length in NT.
    rewrite AB' in SS. pose proof (forall2_at _ _ _ _ _ _ SS NT) as (_ & SLO & _). rewrite Forall_forall in RS. destruct (RS t) as (J & NM & _); [rewrite AB'; apply in_or_app; right; now left|].
    cbn [fi_filename activity_of] in U. rewrite <- J in U. destruct U as [[I _]|[_ ->]].
    + exfalso. rewrite AB', map_app in N2. cbn [map] in N2. apply NoDup_remove_2 in N2. apply N2, in_or_app. left.
      replace (map sc_java_name (a ++ s :: b)) with (map view_name_to_logic (map fi_filename (map activity_of (a ++ s :: b)))); [exact I|].
      rewrite !map_map. apply map_ext_in. intros z Iz. destruct (RS z) as (Jz & _); [rewrite AB'; apply in_or_app; now left|]. now rewrite Jz.
    + rewrite G in EO. subst le. eapply read_idle; eauto.
Qed.
