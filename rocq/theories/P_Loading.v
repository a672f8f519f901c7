(** Properties C65 to C68: loading of raw and parsed projects (/repo/src/parser/mod.rs L153-211, /repo/src/api/mod.rs L303-450,
    /repo/src/api/screen.rs L182-282). The program consumes the maps of the parsed project; the statements (SpecLoad.v) say
    for every part what it is read from. *)
From Coq Require Import Lia.
From Verif Require Import Base Str M_Color M_Raw M_Project M_File M_Library M_Resource M_View M_Logic M_Parsed A_Block A_View A_Screen A_Project
  SpecBlock SpecView SpecScreen SpecProject SpecLoad BlockProofs ScreenProofs ApiProjectProofs LoadProofs P_Panic P_Files P_Block P_ApiView P_Screen P_ApiProject P_Parsed.

(** ** C65 *)
Theorem C65_reads mv ex w r : parse_from mv ex w = r <-> raw_reads mv ex w r.
Proof. split; [intros <-; apply parse_from_reads|]. apply raw_reads_det, parse_from_reads. Qed.
Print Assumptions C65_reads.
(** success means that every part is read, and the result consists of the results *)
Theorem C65_ok mv ex w p : parse_from mv ex w = Ok p <->
  project_parse (rp_project w) = Ok (pp_project p) /\ file_parse (rp_file w) = Ok (pp_file p) /\ library_parse (rp_library w) = Ok (pp_library p) /\
  resource_parse (rp_resource w) = Ok (pp_resource p) /\ view_parse (rp_view w) = Ok (pp_view p) /\ logic_parse mv (rp_logic w) = Ok (pp_logic p) /\
  match rp_resource_files w, pp_resource_files p with
  | None, None => True
  | Some ws, Some f => res_files_try_from ex ws = Ok f
  | _, _ => False
  end.
Proof.
  rewrite C65_reads. unfold raw_reads.
  destruct (project_parse _) as [x1| |]; cbn [map_err after]; [|split; [|intros (? & _)]; discriminate..].
  destruct (file_parse _) as [x2| |]; cbn [map_err after]; [|split; [|intros (_ & ? & _)]; discriminate..].
  destruct (library_parse _) as [x3| |]; cbn [map_err after]; [|split; [|intros (_ & _ & ? & _)]; discriminate..].
  destruct (resource_parse _) as [x4| |]; cbn [map_err after]; [|split; [|intros (_ & _ & _ & ? & _)]; discriminate..].
  destruct (view_parse _) as [x5| |]; cbn [map_err after]; [|split; [|intros (_ & _ & _ & _ & ? & _)]; discriminate..].
  destruct (logic_parse _ _) as [x6| |]; cbn [map_err after]; [|split; [|intros (_ & _ & _ & _ & _ & ? & _)]; discriminate..].
  destruct p as [p1 p2 p3 p4 p5 p6 p7]; cbn [pp_project pp_file pp_library pp_resource pp_view pp_logic pp_resource_files].
  destruct (rp_resource_files w) as [ws|].
  - destruct (res_files_try_from ex ws) as [f| |]; cbn [map_err after].
    + split; [intros [= -> -> -> -> -> -> ->]; repeat split|intros ([= ->] & [= ->] & [= ->] & [= ->] & [= ->] & [= ->] & H)].
      destruct p7; [now injection H as ->|contradiction].
    + split; [discriminate|]. intros (_ & _ & _ & _ & _ & _ & H). destruct p7; [discriminate|contradiction].
    + split; [discriminate|]. intros (_ & _ & _ & _ & _ & _ & H). destruct p7; [discriminate|contradiction].
  - split; [intros [= -> -> -> -> -> -> ->]; repeat split|intros ([= ->] & [= ->] & [= ->] & [= ->] & [= ->] & [= ->] & H)].
    destruct p7; [contradiction|reflexivity].
Qed.
Print Assumptions C65_ok.
(** an error says which part failed: the parts before it are fine *)
Definition fine {E A} (r : res E A) : Prop := exists a, r = Ok a.
Theorem C65_error mv ex w e : parse_from mv ex w = Err e <->
  match e with
  | PeProject x => project_parse (rp_project w) = Err x
  | PeFile x => file_parse (rp_file w) = Err x /\ fine (project_parse (rp_project w))
  | PeLibrary x => library_parse (rp_library w) = Err x /\ fine (project_parse (rp_project w)) /\ fine (file_parse (rp_file w))
  | PeResource x => resource_parse (rp_resource w) = Err x /\ fine (project_parse (rp_project w)) /\ fine (file_parse (rp_file w)) /\
                    fine (library_parse (rp_library w))
  | PeView x => view_parse (rp_view w) = Err x /\ fine (project_parse (rp_project w)) /\ fine (file_parse (rp_file w)) /\
                fine (library_parse (rp_library w)) /\ fine (resource_parse (rp_resource w))
  | PeLogic x => logic_parse mv (rp_logic w) = Err x /\ fine (project_parse (rp_project w)) /\ fine (file_parse (rp_file w)) /\
                 fine (library_parse (rp_library w)) /\ fine (resource_parse (rp_resource w)) /\ fine (view_parse (rp_view w))
  | PeResourceFiles x => (exists ws, rp_resource_files w = Some ws /\ res_files_try_from ex ws = Err x) /\
                 fine (project_parse (rp_project w)) /\ fine (file_parse (rp_file w)) /\
                 fine (library_parse (rp_library w)) /\ fine (resource_parse (rp_resource w)) /\ fine (view_parse (rp_view w)) /\
                 fine (logic_parse mv (rp_logic w))
  end.
Proof.
  assert (F : forall E A (a : A), @fine E A (Ok a) <-> True) by (intros; unfold fine; split; eauto).
  assert (F1 : forall E A (e : E), @fine E A (Err e) <-> False) by (intros; unfold fine; split; [intros (? & ?); discriminate|tauto]).
  assert (F2 : forall E A, @fine E A Panic <-> False) by (intros; unfold fine; split; [intros (? & ?); discriminate|tauto]).
  rewrite C65_reads. unfold raw_reads.
  destruct (project_parse _) as [x1| |]; cbn [map_err after]; [|destruct e; rewrite ?F1, ?F2; split; intuition congruence..].
  destruct (file_parse _) as [x2| |]; cbn [map_err after]; [|destruct e; rewrite ?F, ?F1, ?F2; split; intuition congruence..].
  destruct (library_parse _) as [x3| |]; cbn [map_err after]; [|destruct e; rewrite ?F, ?F1, ?F2; split; intuition congruence..].
  destruct (resource_parse _) as [x4| |]; cbn [map_err after]; [|destruct e; rewrite ?F, ?F1, ?F2; split; intuition congruence..].
  destruct (view_parse _) as [x5| |]; cbn [map_err after]; [|destruct e; rewrite ?F, ?F1, ?F2; split; intuition congruence..].
  destruct (logic_parse _ _) as [x6| |]; cbn [map_err after]; [|destruct e; rewrite ?F, ?F1, ?F2; split; intuition congruence..].
  destruct (rp_resource_files w) as [ws|].
  - destruct (res_files_try_from ex ws) as [f| |] eqn:RF; cbn [map_err after]; destruct e; rewrite ?F; split; try intuition congruence.
    + intros ((ws' & [= <-] & H) & _). congruence.
    + intros [= ->]. repeat split; eauto.
    + intros ((ws' & [= <-] & H) & _). congruence.
    + intros ((ws' & [= <-] & H) & _). congruence.
  - destruct e; rewrite ?F; split; try intuition congruence. intros ((ws' & H & _) & _). discriminate.
Qed.
Print Assumptions C65_error.
(** only the project file and the logic file can make it panic *)
Theorem C65_panic mv ex w : parse_from mv ex w = Panic <->
  project_parse (rp_project w) = Panic \/
  (fine (project_parse (rp_project w)) /\ fine (file_parse (rp_file w)) /\ fine (library_parse (rp_library w)) /\
   fine (resource_parse (rp_resource w)) /\ fine (view_parse (rp_view w)) /\ logic_parse mv (rp_logic w) = Panic).
Proof.
  assert (F : forall E A (a : A), @fine E A (Ok a) <-> True) by (intros; unfold fine; split; eauto).
  assert (F1 : forall E A (e : E), @fine E A (Err e) <-> False) by (intros; unfold fine; split; [intros (? & ?); discriminate|tauto]).
  assert (F2 : forall E A, @fine E A Panic <-> False) by (intros; unfold fine; split; [intros (? & ?); discriminate|tauto]).
  rewrite C65_reads. unfold raw_reads.
  pose proof (proj1 (C24_data_files (rp_file w))) as N2. pose proof (proj1 (proj2 (C24_data_files (rp_library w)))) as N3.
  pose proof (proj1 (proj2 (proj2 (C24_data_files (rp_resource w))))) as N4. pose proof (proj2 (proj2 (proj2 (C24_data_files (rp_view w))))) as N5.
  destruct (project_parse _) as [x1| |]; cbn [map_err after]; rewrite ?F, ?F1, ?F2; [|split; intuition congruence..].
  destruct (file_parse _) as [x2| |]; cbn [map_err after]; rewrite ?F, ?F1, ?F2; [|split; intuition congruence..].
  destruct (library_parse _) as [x3| |]; cbn [map_err after]; rewrite ?F, ?F1, ?F2; [|split; intuition congruence..].
  destruct (resource_parse _) as [x4| |]; cbn [map_err after]; rewrite ?F, ?F1, ?F2; [|split; intuition congruence..].
  destruct (view_parse _) as [x5| |]; cbn [map_err after]; rewrite ?F, ?F1, ?F2; [|split; intuition congruence..].
  destruct (logic_parse _ _) as [x6| |]; cbn [map_err after]; rewrite ?F, ?F1, ?F2; [|split; intuition congruence..].
  destruct (rp_resource_files w) as [ws|]; [|split; intuition congruence].
  assert (N6 : res_files_try_from ex ws <> Panic).
  { unfold res_files_try_from. generalize res_files_default. induction ws as [|x ws IH]; intros rf; cbn [rf_collect]; [discriminate|].
    assert (N : rf_step ex rf x <> Panic).
    { unfold rf_step. destruct x as [p| |]; try discriminate. destruct (negb (ex p)); [discriminate|]. destruct (parent_of _) as [q|]; [|discriminate]. cbn [ok_or bind].
      destruct (parent_of q) as [q'|]; [|discriminate]. cbn [ok_or bind]. destruct (file_name_of q'); [|discriminate]. cbn [ok_or bind].
      destruct (file_name_of (components p)); [|discriminate]. cbn [ok_or bind]. destruct (type_of_folder _); discriminate. }
    destruct (rf_step ex rf x); cbn [bind]; [apply IH|discriminate|congruence]. }
  destruct (res_files_try_from ex ws) as [f| |]; cbn [map_err after]; split; intuition congruence.
Qed.
Print Assumptions C65_panic.
(** the two entry points without and with resource files *)
Theorem C65_entry_points mv ex p f l s v g ws :
  parse_wo_res mv ex p f l s v g = parse_from mv ex {| rp_project := p; rp_file := f; rp_library := l; rp_resource := s; rp_view := v; rp_logic := g; rp_resource_files := None |} /\
  parse_project mv ex p f l s v g ws = parse_from mv ex {| rp_project := p; rp_file := f; rp_library := l; rp_resource := s; rp_view := v; rp_logic := g; rp_resource_files := Some ws |}.
Proof. split; reflexivity. Qed.
Print Assumptions C65_entry_points.

(** ** C66 *)
Theorem C66_reads rnd v r : project_try_from rnd v = r <-> project_reads rnd v r.
Proof. split; [intros <-; apply project_try_from_reads|]. apply project_reads_det, project_try_from_reads. Qed.
Print Assumptions C66_reads.
(** each screen is read from the parts that belong to its name *)
Theorem C66_screen rnd v p before fe rest : project_try_from rnd v = Ok p -> f_activities (pp_file v) = before ++ fe :: rest ->
  exists ve le fab s, nth_error (sp_screens p) (length before) = Some s /\ screen_parts v before fe ve le fab /\
    screen_from_parsed (fi_filename fe) (sl_name le) fe ve le fab = Ok s.
Proof.
  intros H E. apply C66_reads in H. destruct H as (ss & O & H). destruct O as [(ys & -> & L & O)|(b & x & a & bad & _ & _ & F & _)].
  - destruct (O _ _ _ E) as (s & N & ve & le & fab & r & P & R & Q). cbn [after] in H. destruct r as [s'| |]; try discriminate Q. injection Q as <-.
    exists ve, le, fab, s. split; [|split; [exact P|]]; [|eapply screen_reads_det; [apply screen_from_parsed_reads|exact R]].
    destruct H as (cvs & _ & H). destruct cvs as [cvs| |]; cbn [after] in H; try discriminate H.
    destruct H as (fb & _ & H). destruct fb as [fb| |]; cbn [after] in H; try discriminate H.
    destruct H as (am & _ & H). destruct am as [am| |]; cbn [after] in H; try discriminate H.
    destruct H as (gm & _ & H). destruct gm as [gm| |]; cbn [after] in H; try discriminate H.
    destruct H as (im & _ & H). destruct im as [im| |]; cbn [after] in H; try discriminate H.
    destruct H as (so & _ & H). destruct so as [so| |]; cbn [after] in H; try discriminate H.
    destruct H as (fo & _ & H). destruct fo as [fo| |]; cbn [after] in H; try discriminate H.
    destruct H as (c & _ & H). injection H as ->. exact N.
  - exfalso. destruct bad; cbn in F; try contradiction; subst ss; discriminate H.
Qed.
Print Assumptions C66_screen.
(** activities with different names, and different names of their logic, get what is stored under them *)
Theorem C66_distinct rnd v p before fe rest : project_try_from rnd v = Ok p -> f_activities (pp_file v) = before ++ fe :: rest ->
  NoDup (map view_name_to_logic (map fi_filename (f_activities (pp_file v)))) ->
  exists s, nth_error (sp_screens p) (length before) = Some s /\
    parse_raw_layout (or_empty (sget (fi_filename fe) (vw_layouts (pp_view v)))) = Ok (sc_layout s) /\
    sc_fab s = option_map view_from (sget (fi_filename fe) (vw_fabs (pp_view v))) /\
    match sget (view_name_to_logic (fi_filename fe)) (pp_logic v) with
    | Some le => sc_java_name s = sl_name le /\ sc_variables s = or_empty (sl_variables le) /\ sc_list_variables s = or_empty (sl_list_variables le)
    | None => sc_java_name s = fi_filename fe /\ has_no_logic s
    end.
Proof.
  intros H E ND. assert (NA : ~ In (view_name_to_logic (fi_filename fe)) (map view_name_to_logic (map fi_filename before))).
  { rewrite E, !map_app in ND. cbn [map] in ND. apply NoDup_remove_2 in ND. rewrite in_app_iff in ND. tauto. }
  assert (NB : ~ In (fi_filename fe) (map fi_filename before)) by (intros I; apply NA; now apply in_map).
  destruct (C66_screen _ _ _ _ _ _ H E) as (ve & le & fab & s & N & P & S). exists s. split; [exact N|].
  destruct P as ((o1 & U1 & ->) & (o2 & U2 & ->) & (o3 & U3 & ->)).
  destruct U1 as [[I _]|[_ ->]]; [contradiction|]. destruct U2 as [[I _]|[_ ->]]; [contradiction|]. destruct U3 as [[I _]|[_ ->]]; [contradiction|].
  pose proof S as S'. unfold screen_from_parsed in S. apply bind_ok in S as (views & V & S). apply map_err_ok in V.
  apply bind_ok in S as ([ms bc] & M & S). apply bind_ok in S as (cs & C & S). apply bind_ok in S as (es & EV & S). injection S as <-.
  cbn [sc_layout sc_fab sc_java_name sc_variables sc_list_variables]. split; [exact V|]. split; [reflexivity|].
  destruct (sget (view_name_to_logic (fi_filename fe)) (pp_logic v)) as [le|]; [auto|]. split; [reflexivity|]. eapply empty_logic; eauto.
Qed.
Print Assumptions C66_distinct.
(** a second activity with the same name finds nothing *)
Theorem C66_repeated rnd v p before fe rest : project_try_from rnd v = Ok p -> f_activities (pp_file v) = before ++ fe :: rest ->
  In (fi_filename fe) (map fi_filename before) ->
  exists s, nth_error (sp_screens p) (length before) = Some s /\ sc_layout s = [] /\ sc_fab s = None /\ sc_java_name s = fi_filename fe /\ has_no_logic s.
Proof.
  intros H E I. destruct (C66_screen _ _ _ _ _ _ H E) as (ve & le & fab & s & N & P & S). exists s. split; [exact N|].
  destruct P as ((o1 & U1 & ->) & (o2 & U2 & ->) & (o3 & U3 & ->)).
  destruct U1 as [[_ ->]|[NI _]]; [|contradiction]. destruct U3 as [[_ ->]|[NI _]]; [|contradiction].
  destruct U2 as [[_ ->]|[NI _]]; [|elim NI; now apply in_map]. pose proof (empty_logic _ _ _ _ _ _ _ S) as L.
  unfold screen_from_parsed in S. cbn in S. injection S as <-. cbn. repeat split.
Qed.
Print Assumptions C66_repeated.
Lemma in_order_nopanic {X E A} (step : list X -> X -> res E A -> Prop) l r : (forall b x a, l = b ++ x :: a -> ~ step b x Panic) -> in_order step l r -> r <> Panic.
Proof.
  intros N [(ys & -> & _)|(b & x & a & bad & EQ & Y & F & _)]; [discriminate|]. destruct bad as [|e|]; cbn in F; try contradiction; subst r; [discriminate|].
  exfalso. eapply N; eauto.
Qed.
(** no word of a block or moreblock spec is bad (SpecBlock.v): the screen does not panic *)
Definition good_specs (le : screen_logic) : Prop :=
  (forall k c pb, In (k, c) (sl_block_containers le) -> In pb c -> forall ws t, words (bl_spec pb) ws -> In t ws -> ~ bad_word t) /\
  (forall id mb, In (id, mb) (or_empty (sl_more_blocks le)) -> forall ws t, words (mb_spec mb) ws -> In t ws -> ~ bad_word t).
Lemma sget_in {V} k (m : smap V) v : sget k m = Some v -> In (k, v) m.
Proof.
  induction m as [|[k' v'] m IH]; cbn; [discriminate|]. destruct (str_eqb_spec k k') as [->|_]; [intros [= ->]; auto|auto].
Qed.
Lemma code_under_nopanic le used k : good_specs le -> ~ code_under (sl_block_containers le) used k Panic.
Proof.
  intros [G _] [[_ H]|[(_ & _ & H)|(_ & c & S & H)]]; try discriminate. symmetry in H. revert H. apply C24_blocks_partial.
  intros pb ws t I. eapply G; eauto. eapply sget_in; eauto.
Qed.
Theorem C67_no_panic ln jn fe ve le fab : good_specs le -> screen_from_parsed ln jn fe ve le fab <> Panic.
Proof.
  intros G H. pose proof (screen_from_parsed_reads ln jn fe ve le fab) as R. rewrite H in R. clear H. unfold screen_reads in R.
  pose proof (C38_no_panic ve) as NV. destruct (parse_raw_layout ve) as [views| |]; cbn [map_err after] in R; try congruence.
  destruct R as (ms & M & R). assert (NM : ms <> Panic).
  { revert M. apply in_order_nopanic. intros b [id mb] a E S. unfold more_block_step in S. cbn [fst snd] in S.
    destruct (parse_wo_params (mb_spec mb)) as [sp| |] eqn:P; cbn [map_err after] in S; try discriminate.
    - destruct S as (c & C & S). destruct c as [c| |]; cbn [map_err after] in S; try discriminate. now apply code_under_nopanic in C.
    - destruct (C24_spec_partial (mb_spec mb) [] (or_introl P)) as (ws & t & W & I & B). destruct G as [_ G].
      eapply G; eauto. rewrite E. apply in_app_iff. right. now left. }
  destruct ms as [ms| |]; cbn [after] in R; try congruence.
  destruct R as (cs & C & R). assert (NC : cs <> Panic).
  { revert C. apply in_order_nopanic. intros b c a _ S. unfold component_step in S. destruct (from_parser_component c); discriminate. }
  destruct cs as [cs| |]; cbn [after] in R; try congruence.
  destruct R as (raw & es & _ & EV & R). assert (NE : es <> Panic).
  { revert EV. apply in_order_nopanic. intros b c a _ [[_ S]|(e & k & cd & _ & _ & K & S)]; [discriminate|].
    destruct cd as [cd| |]; cbn [map_err after] in S; try discriminate. now apply code_under_nopanic in K. }
  destruct es as [es| |]; cbn [after] in R; congruence.
Qed.
Print Assumptions C67_no_panic.
Theorem C66_no_panic rnd v : Forall (fun x => good_specs (snd x)) (pp_logic v) -> project_try_from rnd v <> Panic.
Proof.
  intros G H. pose proof (project_try_from_reads rnd v) as R. rewrite H in R. clear H. unfold project_reads in R.
  destruct R as (ss & S & R). assert (N : ss <> Panic).
  { revert S. apply in_order_nopanic. intros b fe a _ (ve & le & fab & s & (_ & (o & U & ->) & _) & Q & E). destruct s; try discriminate E.
    pose proof (screen_reads_det _ _ _ _ _ _ _ _ (screen_from_parsed_reads _ _ _ _ _ _) Q) as X. revert X. apply C67_no_panic.
    destruct U as [[_ ->]|[_ ->]]; [split; cbn; intros; contradiction|]. destruct (sget _ _) as [le|] eqn:SG; [|split; cbn; intros; contradiction].
    apply sget_in in SG. rewrite Forall_forall in G. apply (G _ SG). }
  destruct ss as [ss| |]; cbn [after] in R; try congruence. clear N S.
  destruct R as (cvs & S & R). assert (N : cvs <> Panic).
  { revert S. apply in_order_nopanic. intros b fe a _ (o & _ & Q). destruct o as [lay|]; [|discriminate]. pose proof (C38_no_panic lay).
    destruct (parse_raw_layout lay); cbn [map_err after] in Q; congruence. }
  destruct cvs as [cvs| |]; cbn [after] in R; try congruence. clear N S.
  do 3 (destruct R as (? & S & R); destruct S as [[_ ->]|[[_ ->]|(_ & _ & ->)]]; cbn [after] in R; try discriminate R).
  all: do 3 (destruct R as (? & S & R); apply in_order_nopanic in S;
         [|intros ? it ? _ Q; unfold resource_step in Q; destruct (pp_resource_files v); cbn [option_map] in Q; [destruct Q as ([] & _ & Q)|]; discriminate];
       match type of S with ?x <> Panic => destruct x as [?| |]; cbn [after] in R; try congruence end; clear S).
  all: destruct R as (? & _ & R); discriminate.
Qed.
Print Assumptions C66_no_panic.

(** ** C67 *)
Theorem C67_reads ln jn fe ve le fab r : screen_from_parsed ln jn fe ve le fab = r <-> screen_reads ln jn fe ve le fab r.
Proof. split; [intros <-; apply screen_from_parsed_reads|]. apply screen_reads_det, screen_from_parsed_reads. Qed.
Print Assumptions C67_reads.
(** success: every moreblock and event has the code of its container, which is its own unless an earlier one took it *)
Definition code_is (bc : smap block_container) (used : Prop) (k : str) (code : blocks) : Prop :=
  (used /\ code = []) \/ (~ used /\ sget k bc = None /\ code = []) \/ (~ used /\ exists c, sget k bc = Some c /\ blocks_try_from c = Ok code).
Lemma pos_forall2 {A B} (P : A -> B -> Prop) l : forall ys, length ys = length l ->
  (forall b x a, l = b ++ x :: a -> exists y, nth_error ys (length b) = Some y /\ P x y) -> Forall2 P l ys.
Proof.
  induction l as [|x l IH]; intros [|y ys] L H; cbn in L; try discriminate; [constructor|].
  destruct (H [] x l eq_refl) as (y' & [= <-] & Q). constructor; [exact Q|]. apply IH; [lia|]. intros b z a ->. apply (H (x :: b) z a eq_refl).
Qed.
Lemma in_order_ok {X E A} (step : list X -> X -> res E A -> Prop) l ys : in_order step l (Ok ys) ->
  length ys = length l /\ forall b x a, l = b ++ x :: a -> exists y, nth_error ys (length b) = Some y /\ step b x (Ok y).
Proof.
  intros [(zs & [= <-] & H)|(b & x & a & bad & _ & _ & F & _)]; [exact H|]. destruct bad; cbn in F; try contradiction; discriminate.
Qed.
Lemma more_block_key_inj a b : more_block_key a = more_block_key b -> a = b.
Proof. apply app_inv_tail. Qed.
Theorem C67_ok ln jn fe ve le fab s : NoDup (map fst (or_empty (sl_more_blocks le))) -> screen_from_parsed ln jn fe ve le fab = Ok s ->
  let bc := sl_block_containers le in
  parse_raw_layout ve = Ok (sc_layout s) /\
  Forall2 (fun x y => fst y = fst x /\ am_name (snd y) = fst x /\ parse_wo_params (mb_spec (snd x)) = Ok (am_spec (snd y)) /\
                      code_is bc False (more_block_key (fst x)) (am_code (snd y)))
    (or_empty (sl_more_blocks le)) (sc_more_blocks s) /\
  (NoDup (map co_id (or_empty (sl_components le))) ->
   Forall2 (fun c y => fst y = co_id c /\ from_parser_component c = Ok (snd y)) (or_empty (sl_components le)) (sc_components s)) /\
  (forall before e rest, sc_events s = before ++ e :: rest -> exists k, container_name e k /\
     code_is bc (used_by_more_blocks (or_empty (sl_more_blocks le)) k \/ exists e', In e' before /\ container_name e' k) k (ae_code e)).
Proof.
  intros ND H. apply C67_reads in H. unfold screen_reads in H. destruct (parse_raw_layout ve) as [views| |]; cbn [map_err after] in H; try discriminate H.
  destruct H as (ms & M & H). destruct ms as [ms| |]; cbn [after] in H; try discriminate H.
  destruct H as (cs & C & H). destruct cs as [cs| |]; cbn [after] in H; try discriminate H.
  destruct H as (raw & es & R & EV & H). destruct es as [es| |]; cbn [after] in H; try discriminate H. injection H as ->.
  cbn [sc_layout sc_more_blocks sc_components sc_events]. cbv zeta.
  apply in_order_ok in M as [LM M]. apply in_order_ok in C as [LC C]. apply in_order_ok in EV as [LE EV].
  assert (FM : Forall2 (fun x y => fst y = fst x /\ am_name (snd y) = fst x /\ parse_wo_params (mb_spec (snd x)) = Ok (am_spec (snd y)) /\
                      code_is (sl_block_containers le) False (more_block_key (fst x)) (am_code (snd y))) (or_empty (sl_more_blocks le)) ms).
  { apply pos_forall2; [exact LM|]. intros b [id mb] a E. destruct (M _ _ _ E) as (y & N & S). exists y. split; [exact N|]. unfold more_block_step in S. cbn [fst snd] in S.
    destruct (parse_wo_params (mb_spec mb)) as [sp| |] eqn:P; cbn [map_err after] in S; try discriminate S. destruct S as (c & U & S).
    destruct c as [c| |]; cbn [map_err after] in S; try discriminate S. injection S as ->. cbn [fst snd am_name am_spec am_code]. repeat split; auto.
    destruct U as [[(i & I & K) _]|[(_ & G & [= ->])|(_ & c' & G & K)]].
    - apply more_block_key_inj in K. subst i. rewrite E, map_app in ND. cbn in ND. apply NoDup_remove_2 in ND. exfalso. apply ND, in_app_iff. auto.
    - right. left. auto.
    - right. right. split; [tauto|]. eauto. }
  split; [reflexivity|]. split; [|split].
  - rewrite scollect_nodup; [exact FM|]. assert (E : map fst ms = map fst (or_empty (sl_more_blocks le))); [|rewrite E; exact ND].
    clear -FM. induction FM as [|x y l m [H _] _ IH]; cbn; [reflexivity|]. congruence.
  - intros NC. assert (FC : Forall2 (fun c y => fst y = co_id c /\ from_parser_component c = Ok (snd y)) (or_empty (sl_components le)) cs).
    { apply pos_forall2; [exact LC|]. intros b c a E. destruct (C _ _ _ E) as (y & N & S). exists y. split; [exact N|]. unfold component_step in S.
      destruct (from_parser_component c) as [k| |]; try discriminate S. injection S as ->. auto. }
    rewrite scollect_nodup; [exact FC|]. assert (E : map fst cs = map co_id (or_empty (sl_components le))); [|rewrite E; exact NC].
    clear -FC. induction FC as [|x y l m [H _] _ IH]; cbn; [reflexivity|]. congruence.
  - intros b e a E. assert (NE : nth_error es (length b) = Some e) by (rewrite E, nth_error_app2, Nat.sub_diag; auto).
    assert (LT : (length b < length raw)%nat) by (rewrite <- LE, E, app_length; cbn; lia).
    destruct (nth_error raw (length b)) as [x|] eqn:NX; [|apply nth_error_None in NX; lia]. apply nth_split in NX as (rb & ra & ER & LB).
    assert (ST : Forall2 stands_for raw es).
    { apply pos_forall2; [exact LE|]. intros b' x' a' E'. destruct (EV _ _ _ E') as (y & N & [[_ S]|(e' & k & c & S & K & U & W)]); [discriminate|]. exists y. split; [exact N|].
      destruct c as [c| |]; cbn [map_err after] in W; try discriminate W. injection W as ->. exact S. }
    assert (SB : Forall2 stands_for rb b).
    { rewrite ER, E in ST. apply Forall2_app_inv_l in ST as (l1 & l2 & S1 & _ & EQ). assert (L1 := Forall2_len _ _ _ S1). rewrite LB in L1.
      replace b with l1; [exact S1|]. clear -EQ L1. revert l1 EQ L1. induction b as [|z b IH]; intros [|z' l1] EQ L1; cbn in *; try lia; auto. injection EQ as -> EQ. f_equal. apply IH; auto. }
    destruct (EV _ _ _ ER) as (y & N & [[_ S]|(e' & k & c & S & K & U & W)]); [discriminate|]. rewrite LB, NE in N. injection N as <-.
    destruct c as [c| |]; cbn [map_err after] in W; try discriminate W. injection W as ->. exists k. split; [exact K|]. cbn [ae_code].
    assert (Q : used_by_events rb k <-> exists e1, In e1 b /\ container_name e1 k).
    { clear -SB. unfold used_by_events. induction SB as [|x y l m S _ IH].
      - split; [intros (? & ? & [] & _)|intros (? & [] & _)].
      - cbn. split.
        + intros (r & e & [<-|I] & S' & K); [exists y; split; [auto|]|].
          * destruct (stands_det _ _ _ S S') as [E1 E2]. revert K. unfold container_name. rewrite E1, E2. auto.
          * destruct (proj1 IH) as (e1 & I1 & K1); [eauto|]. eauto.
        + intros (e & [<-|I] & K); [exists x, y; auto|]. destruct (proj2 IH) as (r & e1 & I1 & S1 & K1); [eauto|]. eauto 6. }
    unfold code_is. rewrite <- Q. destruct U as [[A [= ->]]|[(A & G & [= ->])|(A & c' & G & C')]]; [left|right; left|right; right]; auto. split; [exact A|]. eauto.
Qed.
Print Assumptions C67_ok.

(** ** C68 *)
Definition files_of (t : res_type) (f : res_files) : smap res_wrapper :=
  match t with RImage => rf_images f | RSound => rf_sounds f | RFont => rf_fonts f | RCustomIcon => [] end.
Definition items_of (t : res_type) (r : resource) : list resource_item :=
  match t with RImage => rs_images r | RSound => rs_sounds r | RFont => rs_fonts r | RCustomIcon => [] end.
Definition loaded_of (t : res_type) (r : resources) : smap res_wrapper :=
  match t with RImage => re_images r | RSound => re_sounds r | RFont => re_fonts r | RCustomIcon => [] end.
(** there is no file for the item, or an item before it has taken the file *)
Definition no_file (m : smap res_wrapper) (before : list resource_item) (it : resource_item) : Prop :=
  sget (ri_full_name it) m = None \/ exists x, In x before /\ ri_full_name x = ri_full_name it.
Definition all_files (m : smap res_wrapper) (l : list resource_item) : Prop :=
  forall before it rest, l = before ++ it :: rest -> ~ no_file m before it.
Definition first_without (t : res_type) (m : smap res_wrapper) (l : list resource_item) (e : project_error) : Prop :=
  exists before it rest, l = before ++ it :: rest /\ all_files m before /\ no_file m before it /\
    e = XMissingResourceFile (ri_name it) (ri_full_name it) t.
Definition with_resource (v : parsed_project) (r : resource) : parsed_project :=
  {| pp_project := pp_project v; pp_file := pp_file v; pp_library := pp_library v; pp_resource := r; pp_view := pp_view v; pp_logic := pp_logic v;
     pp_resource_files := pp_resource_files v |}.
Lemma resource_step_ok t rnd m b it y : resource_step t rnd (Some m) b it (Ok y) <-> ~ no_file m b it /\ sget (ri_full_name it) m = Some (snd y) /\ fst y = ri_name it.
Proof.
  pose proof (in_map_iff ri_full_name b (ri_full_name it)) as IM. unfold resource_step, unused, no_file. split.
  - intros (o & U & E). destruct o as [w|]; [|discriminate]. injection E as ->. destruct U as [[_ U]|[N U]]; [discriminate|]. cbn. repeat split; auto.
    intros [G|(x & I & Q)]; [congruence|]. apply N, IM. eauto.
  - intros (N & G & F). exists (Some (snd y)). split; [right; split; [|congruence]|destruct y; cbn in *; congruence]. rewrite IM. intros (x & Q & I). apply N. right. eauto.
Qed.
Lemma resource_step_err t rnd m b it e : resource_step t rnd (Some m) b it (Err e) <-> no_file m b it /\ e = XMissingResourceFile (ri_name it) (ri_full_name it) t.
Proof.
  pose proof (in_map_iff ri_full_name b (ri_full_name it)) as IM. unfold resource_step, unused, no_file. split.
  - intros (o & U & E). destruct o as [w|]; [discriminate|]. injection E as ->. split; [|reflexivity]. destruct U as [[I _]|[_ U]]; [apply IM in I as (x & Q & I); right; eauto|left; auto].
  - intros (N & ->). exists None. split; [|reflexivity]. destruct N as [G|(x & I & Q)]; [|left; split; [apply IM; eauto|reflexivity]].
    destruct (in_dec (list_eq_dec N.eq_dec) (ri_full_name it) (map ri_full_name b)) as [I|I]; [left|right]; auto.
Qed.
Lemma resources_err t rnd m l e : in_order (resource_step t rnd (Some m)) l (Err e) <-> first_without t m l e.
Proof.
  split.
  - intros [(ys & H & _)|(b & it & a & bad & -> & S & F & G)]; [discriminate|]. destruct bad as [|x|]; cbn in F; try contradiction; [|discriminate]. injection F as <-.
    apply resource_step_err in S as [S ->]. exists b, it, a. repeat split; auto. intros b' i' a' E. destruct (G _ _ _ E) as (y & Y). now apply resource_step_ok in Y.
  - intros (b & it & a & -> & A & N & ->). right. exists b, it, a, (Err (XMissingResourceFile (ri_name it) (ri_full_name it) t)). split; [reflexivity|].
    split; [now apply resource_step_err|]. split; [reflexivity|]. intros b' i' a' E. specialize (A _ _ _ E). assert (X : exists w, sget (ri_full_name i') m = Some w).
    { destruct (sget (ri_full_name i') m) as [w|] eqn:G; [eauto|]. elim A. now left. }
    destruct X as (w & X). exists (ri_name i', w). now apply resource_step_ok.
Qed.
Lemma resources_ok t rnd m l : (exists ys, in_order (resource_step t rnd (Some m)) l (Ok ys)) <-> all_files m l.
Proof.
  split.
  - intros (ys & O). apply in_order_ok in O as [_ O]. intros b it a E. destruct (O _ _ _ E) as (y & _ & S). now apply resource_step_ok in S.
  - intros A. pose proof (take_resources_order t rnd (Some m) l []) as O. cbn in O. destruct (take_resources t rnd 0 l (Some m)) as [ys|e|].
    + exists ys. exact O.
    + apply resources_err in O as (b & it & a & E & _ & N & _). now elim (A _ _ _ E).
    + exfalso. revert O. intros [(ys & H & _)|(b & it & a & bad & -> & S & F & G)]; [discriminate|]. destruct bad; cbn in F; try contradiction; [discriminate|].
      destruct S as ([|] & _ & S); discriminate.
Qed.
Lemma all_files_iff m l : all_files m l <-> NoDup (map ri_full_name l) /\ forall it, In it l -> exists w, sget (ri_full_name it) m = Some w.
Proof.
  split.
  - intros A. split.
    + induction l as [|it l IH] using rev_ind; [constructor|]. rewrite map_app. cbn. apply (Permutation.Permutation_NoDup (Permutation.Permutation_cons_append _ _)).
      constructor; [|apply IH; intros b x a EQ; apply (A b x (a ++ [it])); rewrite EQ, <- app_assoc; reflexivity]. rewrite in_map_iff. intros (x & Q & I). apply (A l it [] eq_refl). right. eauto.
    + intros it I. apply in_split in I as (b & a & E). specialize (A _ _ _ E). destruct (sget (ri_full_name it) m) as [w|] eqn:G; [eauto|]. elim A. now left.
  - intros [ND H] b it a -> [G|(x & I & Q)].
    + destruct (H it) as (w & W); [apply in_app_iff; right; now left|congruence].
    + rewrite map_app in ND. cbn in ND. apply NoDup_remove_2 in ND. apply ND, in_app_iff. left. rewrite <- Q. now apply in_map.
Qed.
(** loaded with files: every item has a file of its own, of its type and its full name *)
Theorem C68_files rnd v p f t : project_try_from rnd v = Ok p -> pp_resource_files v = Some f -> t <> RCustomIcon ->
  NoDup (map ri_full_name (items_of t (pp_resource v))) /\
  exists ys, loaded_of t (sp_resources p) = scollect ys /\
    Forall2 (fun it y => fst y = ri_name it /\ sget (ri_full_name it) (files_of t f) = Some (snd y)) (items_of t (pp_resource v)) ys.
Proof.
  intros H F T.
  assert (X : exists ys, loaded_of t (sp_resources p) = scollect ys /\ in_order (resource_step t (rnd t) (Some (files_of t f))) (items_of t (pp_resource v)) (Ok ys)).
  { apply C66_reads in H. unfold project_reads in H. rewrite F in H. cbn [option_map] in H.
    destruct H as (ss & _ & H). destruct ss as [ss| |]; cbn [after] in H; try discriminate H. destruct H as (cvs & _ & H). destruct cvs as [cvs| |]; cbn [after] in H; try discriminate H.
    destruct H as (fb & _ & H). destruct fb as [fb| |]; cbn [after] in H; try discriminate H. destruct H as (am & _ & H). destruct am as [am| |]; cbn [after] in H; try discriminate H.
    destruct H as (gm & _ & H). destruct gm as [gm| |]; cbn [after] in H; try discriminate H. destruct H as (im & I & H). destruct im as [im| |]; cbn [after] in H; try discriminate H.
    destruct H as (so & S & H). destruct so as [so| |]; cbn [after] in H; try discriminate H. destruct H as (fo & O & H). destruct fo as [fo| |]; cbn [after] in H; try discriminate H.
    destruct H as (c & _ & H). injection H as ->. cbn [sp_resources]. destruct t; cbn [loaded_of files_of items_of re_images re_sounds re_fonts]; [eauto..|now elim T]. }
  destruct X as (ys & E & O). split; [now apply (proj1 (all_files_iff (files_of t f) _)), (resources_ok t (rnd t)); exists ys|].
  exists ys. split; [exact E|]. apply in_order_ok in O as [L O]. apply pos_forall2; [exact L|]. intros b it a EQ. destruct (O _ _ _ EQ) as (y & N & S). exists y. split; [exact N|].
  apply resource_step_ok in S as (_ & S1 & S2). auto.
Qed.
Print Assumptions C68_files.
(** with other lists of resources, the conversion fails exactly on the first item without a file: images, then sounds, then fonts *)
Theorem C68_missing rnd v p f r : project_try_from rnd v = Ok p -> pp_resource_files v = Some f ->
  ((exists q, project_try_from rnd (with_resource v r) = Ok q) <->
   all_files (rf_images f) (rs_images r) /\ all_files (rf_sounds f) (rs_sounds r) /\ all_files (rf_fonts f) (rs_fonts r)) /\
  forall e, project_try_from rnd (with_resource v r) = Err e <->
    first_without RImage (rf_images f) (rs_images r) e \/
    (all_files (rf_images f) (rs_images r) /\
     (first_without RSound (rf_sounds f) (rs_sounds r) e \/
      (all_files (rf_sounds f) (rs_sounds r) /\ first_without RFont (rf_fonts f) (rs_fonts r) e))).
Proof.
  intros H F. unfold project_try_from in *. cbn [with_resource pp_project pp_file pp_library pp_resource pp_view pp_logic pp_resource_files] in *. rewrite F in H |- *. cbn [option_map] in *.
  destruct (take_screens _ _ _ _) as [[ss lays]| |]; cbn [bind] in *; try discriminate H. destruct (take_custom_views _ _) as [cvs| |]; cbn [bind] in *; try discriminate H.
  destruct (library_conv _ (l_firebase _) _) as [fb| |]; cbn [bind] in *; try discriminate H. destruct (library_conv _ (l_admob _) _) as [am| |]; cbn [bind] in *; try discriminate H.
  destruct (library_conv _ (l_google_map _) _) as [gm| |]; cbn [bind] in *; try discriminate H. clear H.
  assert (A : forall t m l, let r := take_resources t (rnd t) 0 l (Some m) in
     ((exists ys, r = Ok ys) <-> all_files m l) /\ (forall e, r = Err e <-> first_without t m l e) /\ r <> Panic).
  { intros t m l r0. pose proof (take_resources_order t (rnd t) (Some m) l []) as O. cbn [length option_map map rm_all fold_left] in O.
    change (rm_all [] m) with m in O. change (in_order (resource_step t (rnd t) (Some m)) l r0) in O. rewrite <- (resources_ok t (rnd t)). split; [|split].
    - split; [intros (ys & Q); rewrite Q in O; eauto|]. intros (ys & Q). exists ys. eapply in_order_det; [apply resource_step_det|exact O|exact Q].
    - intros e. rewrite <- (resources_err t (rnd t)). split; [intros Q; now rewrite Q in O|]. intros Q. eapply in_order_det; [apply resource_step_det|exact O|exact Q].
    - revert O. apply in_order_nopanic. intros b it a _ ([|] & _ & Q); discriminate. }
  destruct (A RImage (rf_images f) (rs_images r)) as (I1 & I2 & I3). destruct (A RSound (rf_sounds f) (rs_sounds r)) as (S1 & S2 & S3).
  destruct (A RFont (rf_fonts f) (rs_fonts r)) as (F1 & F2 & F3). clear A. cbv zeta in *. rewrite <- I1, <- S1, <- F1. 
  destruct (take_resources RImage _ _ _ _) as [im|x|]; [| |congruence]; cbn [bind].
  - destruct (take_resources RSound _ _ _ _) as [so|x|]; [| |congruence]; cbn [bind].
    + destruct (take_resources RFont _ _ _ _) as [fo|x|]; [| |congruence]; cbn [bind].
      * split; [split; [eauto 6|intros _; eexists; reflexivity]|]. intros e. rewrite <- I1, <- S1, <- I2, <- S2, <- F2. split; [discriminate|]. intros [?|(_ & [?|(_ & ?)])]; discriminate.
      * split; [split; [intros (? & ?); discriminate|intros (_ & _ & ? & ?); discriminate]|]. intros e. rewrite <- I1, <- S1, <- I2, <- S2, <- F2. split; [intros [= ->]; right; split; [eauto|right; split; eauto]|].
        intros [?|(_ & [?|(_ & ?)])]; congruence.
    + split; [split; [intros (? & ?); discriminate|intros (_ & (? & ?) & _); discriminate]|]. intros e. rewrite <- I1, <- S1, <- I2, <- S2. split; [intros [= ->]; right; split; [eauto|left; auto]|].
      intros [?|(_ & [?|((? & ?) & _)])]; congruence.
  - split; [split; [intros (? & ?); discriminate|intros ((? & ?) & _); discriminate]|]. intros e. rewrite <- I1, <- I2. split; [intros [= ->]; auto|].
    intros [?|((? & ?) & _)]; congruence.
Qed.
Print Assumptions C68_missing.
(** loaded without files: every item is known by a number, its full name and its type *)
Theorem C68_no_files rnd v p t : project_try_from rnd v = Ok p -> pp_resource_files v = None -> t <> RCustomIcon ->
  exists ys, loaded_of t (sp_resources p) = scollect ys /\ length ys = length (items_of t (pp_resource v)) /\
    forall before it rest, items_of t (pp_resource v) = before ++ it :: rest ->
      nth_error ys (length before) = Some (ri_name it, WU32Id (rnd t (length before)) (ri_full_name it) t).
Proof.
  intros H F T.
  assert (X : exists ys, loaded_of t (sp_resources p) = scollect ys /\ in_order (resource_step t (rnd t) None) (items_of t (pp_resource v)) (Ok ys)).
  { apply C66_reads in H. unfold project_reads in H. rewrite F in H. cbn [option_map] in H.
    destruct H as (ss & _ & H). destruct ss as [ss| |]; cbn [after] in H; try discriminate H. destruct H as (cvs & _ & H). destruct cvs as [cvs| |]; cbn [after] in H; try discriminate H.
    destruct H as (fb & _ & H). destruct fb as [fb| |]; cbn [after] in H; try discriminate H. destruct H as (am & _ & H). destruct am as [am| |]; cbn [after] in H; try discriminate H.
    destruct H as (gm & _ & H). destruct gm as [gm| |]; cbn [after] in H; try discriminate H. destruct H as (im & I & H). destruct im as [im| |]; cbn [after] in H; try discriminate H.
    destruct H as (so & S & H). destruct so as [so| |]; cbn [after] in H; try discriminate H. destruct H as (fo & O & H). destruct fo as [fo| |]; cbn [after] in H; try discriminate H.
    destruct H as (c & _ & H). injection H as ->. cbn [sp_resources]. destruct t; cbn [loaded_of items_of re_images re_sounds re_fonts]; [eauto..|now elim T]. }
  destruct X as (ys & E & O). exists ys. split; [exact E|]. apply in_order_ok in O as [L O]. split; [exact L|]. intros b it a EQ. destruct (O _ _ _ EQ) as (y & N & S).
  cbn in S. injection S as <-. exact N.
Qed.
Print Assumptions C68_no_files.

(** ** Examples *)
(** the files of a project, with another view file or resource files *)
Definition reread_with (view : option str) (rf : option (list res_wrapper)) : res parse_error parsed_project :=
  match data_files (ex_parsed 1636974733 None) with
  | Ok (a, b, c, d, e, f) =>
    parse_from true (fun _ => false) {| rp_project := a; rp_file := b; rp_library := c; rp_resource := d;
      rp_view := match view with Some x => x | None => e end; rp_logic := f; rp_resource_files := rf |}
  | _ => Panic
  end.
Example C65_example :
  reread_with None None = Ok (ex_parsed 1636974733 None) /\
  rmap pp_resource_files (reread_with None (Some [WU32Id 3 (lit "x.png") RImage])) =
    Ok (Some {| rf_custom_icon := None; rf_images := [(lit "x.png", WU32Id 3 (lit "x.png") RImage)]; rf_sounds := []; rf_fonts := [] |}) /\
  reread_with None (Some [WU32Id 3 (lit "x.png") RImage; WPath (lit "images/1/y.png")]) = Err (PeResourceFiles (FileDoesntExist (lit "images/1/y.png"))) /\
  (* the view file is looked at before the resource files *)
  match reread_with (Some (lit "@main" ++ [10])) (Some [WPath (lit "images/1/y.png")]) with Err (PeView _) => True | _ => False end.
Proof. split; [vm_compute; reflexivity|]. split; [vm_compute; reflexivity|]. split; [vm_compute; reflexivity|]. vm_compute. exact I. Qed.
(** two activities called [main]: the second one is empty *)
Definition twice (names : list string) : parsed_project :=
  let v := parsed0 None [] in
  {| pp_project := pp_project v; pp_file := {| f_activities := map (fun n => file_entry n FtActivity true) names; f_custom_views := [] |};
     pp_library := pp_library v; pp_resource := pp_resource v; pp_view := pp_view v; pp_logic := pp_logic v; pp_resource_files := None |}.
Example C66_example :
  rmap (fun p => map (fun s => (sc_java_name s, map vid (sc_layout s), length (sc_events s), match sc_fab s with Some f => Some (vid f) | None => None end)) (sp_screens p))
    (project_try_from rnd0 (twice ["main"; "row"; "main"]%string)) =
  Ok [(lit "MainActivity", [lit "linear1"], 1%nat, Some (lit "_fab")); (lit "row", [lit "text2"], 0%nat, None); (lit "main", [], 0%nat, None)] /\
  (* two names with the same logic *)
  rmap (fun p => map sc_java_name (sp_screens p)) (project_try_from rnd0 (twice ["_main"; "main"]%string)) = Ok [lit "MainActivity"; lit "main"].
Proof. split; vm_compute; reflexivity. Qed.
(** an event whose container is that of a moreblock gets nothing; the error of a moreblock comes before that of an event *)
Definition raw2 (spec : string) (t : N) : screen_logic :=
  {| sl_name := lit "MainActivity"; sl_block_containers := [(lit "say_moreBlock", [raw_toast "said"])]; sl_variables := None; sl_list_variables := None; sl_components := None;
     sl_events := Some [rawev "moreBlock" t "say" 0]; sl_more_blocks := Some [(lit "say", {| mb_id := lit "say"; mb_spec := lit spec |})] |}.
Example C67_example :
  rmap (fun s => (map (fun kv => (am_name (snd kv), am_code (snd kv))) (sc_more_blocks s), sc_events s)) (load1 (raw2 "say %s.what" 1)) =
    Ok ([(lit "say", [toast "said"])], [ev "moreBlock" (EtView (lit "say")) []]) /\
  load1 (raw2 "say %s.what" 9) = Err (SeUnknownEvent {| ue_name := lit "moreBlock"; ue_type := 9 |}) /\
  match load1 (raw2 "say %q.what" 9) with Err (SeMoreBlockSpec id _) => id = lit "say" | _ => False end /\
  load1 (raw2 "100 %" 1) = Panic /\ ~ good_specs (raw2 "100 %" 1) /\ good_specs (raw2 "say %s.what" 1).
Proof.
  split; [vm_compute; reflexivity|]. split; [vm_compute; reflexivity|]. split; [vm_compute; reflexivity|]. split; [vm_compute; reflexivity|].
  split; [intros G; apply (C67_no_panic (lit "main") (lit "MainActivity") fe1 [] _ None G); vm_compute; reflexivity|].
  assert (A : forall spec ws t, words spec ws -> In t ws -> spec = lit "Toast %s" \/ spec = lit "say %s.what" -> ~ bad_word t).
  { intros spec ws t W I E. apply BlockContentProofs.words_split in W. subst ws.
    assert (J : In t [lit "Toast"; lit "%s"; lit "say"; lit "%s.what"]).
    { destruct E as [-> | ->]; [change (In t [lit "Toast"; lit "%s"]) in I|change (In t [lit "say"; lit "%s.what"]) in I]; cbn [In] in *; tauto. }
    clear I E. intros [->|[(r & -> & _)|(c & r & -> & L)]]; destruct J as [J|[J|[J|[J|[]]]]]; try discriminate J.
    injection J as <- _. lia. }
  split.
  - intros k c pb [[= <- <-]|[]] [<-|[]] ws t W I. eapply A; eauto.
  - intros id mb [[= <- <-]|[]] ws t W I. eapply A; eauto.
Qed.
(** two items with the same file: the second one has none *)
Definition item (f n : string) : resource_item := {| ri_full_name := lit f; ri_name := lit n; ri_type := 1 |}.
Example C68_example :
  let v := parsed0 (Some files0) [] in
  rmap (fun p => re_images (sp_resources p)) (project_try_from rnd0 v) = Ok [(lit "a", WStringId (lit "id1") (lit "a.png") RImage)] /\
  rmap (fun p => re_images (sp_resources p)) (project_try_from rnd0 (with_resource v {| rs_images := [item "a.png" "a"; item "a.png" "b"]; rs_sounds := [item "s.mp3" "s"]; rs_fonts := [] |})) =
    Err (XMissingResourceFile (lit "b") (lit "a.png") RImage) /\
  rmap (fun p => re_images (sp_resources p)) (project_try_from rnd0 (with_resource v {| rs_images := [item "a.png" "a"]; rs_sounds := [item "a.png" "s"]; rs_fonts := [] |})) =
    Err (XMissingResourceFile (lit "s") (lit "a.png") RSound) /\
  rmap (fun p => re_images (sp_resources p)) (project_try_from rnd0 (parsed0 None [])) = Ok [(lit "a", WU32Id 7 (lit "a.png") RImage)].
Proof. split; [|split; [|split]]; vm_compute; reflexivity. Qed.
