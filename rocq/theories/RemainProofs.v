(** Proofs about what remains of a project that is saved and loaded. *)
From Coq Require Import Lia Permutation.
From Verif Require Import Base Str M_Color M_Date M_Raw M_Project M_File M_Library M_Resource M_View M_Logic M_Parsed A_Block A_View A_Screen A_Project
  SpecBlock SpecView SpecScreen SpecProject SpecLoad SpecSave ViewTreeProofs ViewFlatProofs ScreenProofs ApiProjectProofs LibraryProofs ResFilesProofs DateProofs ProjectProofs
  P_Files P_Project P_View P_Logic P_Parsed P_ApiView P_Screen P_ApiProject P_Loading SaveProofs.

Definition clear_more (kv : str * amore_block) : str * amore_block := (fst kv, {| am_name := am_name (snd kv); am_spec := am_spec (snd kv); am_code := [] |}).
Lemma take_more_blocks_clear l : forall bc ms bc', take_more_blocks l bc = Ok (ms, bc') -> take_more_blocks l [] = Ok (map clear_more ms, []).
Proof.
  induction l as [|[id mb] l IH]; intros bc ms bc' H; cbn [take_more_blocks] in *; [now injection H as <- <-|].
  apply bind_ok in H as (sp & E & H). rewrite E. cbn [bind]. unfold take_container in *. apply bind_ok in H as (c & _ & H). apply bind_ok in H as ([ms1 bc1] & H & K).
  injection K as <- <-. cbn. change (sremove (more_block_container id) []) with (@nil (str * block_container)). rewrite (IH _ _ _ H). reflexivity.
Qed.
Lemma take_events_raw l : take_events (map raw_event l) [] = Ok (map strip l).
Proof.
  induction l as [|e l IH]; [reflexivity|]. cbn [map take_events]. rewrite event_back. cbn. change (sremove _ []) with (@nil (str * block_container)). rewrite IH. reflexivity.
Qed.
Lemma filter_on_create l : filter (fun e => if list_eq_dec N.eq_dec (ae_name e) (lit "onCreate") then false else true) l = filter not_on_create l.
Proof.
  apply filter_ext. intros e. unfold not_on_create, ON_CREATE. destruct (list_eq_dec N.eq_dec (ae_name e) (lit "onCreate")) as [E|E].
  - rewrite E, str_eqb_refl. reflexivity.
  - destruct (str_eqb_spec (ae_name e) (lit "onCreate")); [contradiction|reflexivity].
Qed.
Lemma cut_back s lg ln jn fe ve fab views : NoDup (map fst (sc_more_blocks s)) -> NoDup (map fst (sc_components s)) -> good_screen s ->
  parse_raw_layout ve = Ok views -> screen_logic_of s = Ok lg ->
  exists s', screen_from_parsed ln jn fe ve (without_containers lg) fab = Ok s' /\ same_logic (without_code s) s'.
Proof.
  intros NM NC G V L. destruct (proj2 (logic_back_iff s ln jn fe ve fab views NM NC V) G) as (lg' & s1 & L' & P & (S1 & S2 & S3 & S4 & S5)). assert (lg' = lg) as -> by congruence.
  unfold screen_from_parsed in *. rewrite V in *. cbn [map_err bind] in *. apply bind_ok in P as ([ms bc] & M & P). apply bind_ok in P as (cs & C & P). apply bind_ok in P as (es & _ & P). injection P as <-.
  cbn [sc_variables sc_list_variables sc_more_blocks sc_components sc_events] in *.
  assert (EV : or_empty (with_on_create (without_containers lg)) = raw_events (sc_events s)).
  { apply screen_logic_iff in L as (ws & _ & ->). reflexivity. }
  cbn [without_containers sl_more_blocks sl_block_containers sl_components sl_variables sl_list_variables]. rewrite (take_more_blocks_clear _ _ _ _ M). cbn [bind]. rewrite C. cbn [bind].
  fold (without_containers lg). rewrite EV. unfold raw_events. rewrite take_events_raw. cbn [bind]. eexists. split; [reflexivity|].
  unfold same_logic. cbn [sc_variables sc_list_variables sc_more_blocks sc_components sc_events without_code]. split; [exact S1|]. split; [exact S2|]. split; [|split; [exact S4|now rewrite filter_on_create]].
  assert (NMS : NoDup (map fst ms)).
  { assert (K : map fst ms = map fst (or_empty (sl_more_blocks lg))).
    { clear - M. revert ms bc M. generalize (sl_block_containers lg). induction (or_empty (sl_more_blocks lg)) as [|[id mb] l IH]; intros b0 ms bc M; cbn [take_more_blocks] in M; [now injection M as <- _|].
      apply bind_ok in M as (sp & _ & M). unfold take_container in M. apply bind_ok in M as (c & _ & M). apply bind_ok in M as ([ms1 bc1] & M & K). injection K as <- <-. cbn. f_equal. eapply IH; eauto. }
    rewrite K. apply screen_logic_iff in L as (ws & _ & ->). cbn. rewrite scollect_nodup; now rewrite raw_more_blocks_keys. }
  rewrite <- S3. rewrite (scollect_nodup ms NMS). rewrite scollect_nodup; [reflexivity|]. rewrite map_map. exact NMS.
Qed.
Lemma reads_screen_gen lays lgs fabs s t lg ve views : sc_java_name s = view_name_to_logic (sc_layout_name s) -> sget (sc_java_name s) lgs = Some lg -> sl_name lg = sc_java_name s ->
  sget (sc_layout_name s) lays = Some ve -> parse_raw_layout ve = Ok views -> same_layout (sc_layout t) views -> same_settings_of t s ->
  same_fab (sc_fab t) (option_map view_from (sget (sc_layout_name s) fabs)) ->
  (forall fab, exists s', screen_from_parsed (sc_layout_name s) (sl_name lg) (activity_of s) ve lg fab = Ok s' /\ same_logic t s') ->
  exists s', reads_screen lays lgs fabs [] (activity_of s) s' /\ same_screen t s'.
Proof.
  intros J G1 JN G2 V SL SS SF H. destruct (H (option_map view_from (sget (sc_layout_name s) fabs))) as (s' & P & SM). exists s'. split.
  - unfold reads_screen. cbn [map rm_all fold_left fi_filename activity_of]. rewrite <- J, G1, G2. exact P.
  - apply from_parsed_fields in P as (E1 & E2 & E3 & E4 & E5 & E6 & E7 & E8 & E9 & E10 & E11 & _). split; [|split; [exact SM|split]].
    + unfold same_settings_of in *. rewrite E1, E2, E5, E6, E7, E8, E9, E10, E11, JN. exact SS.
    + assert (views = sc_layout s') as <- by congruence. exact SL.
    + rewrite E4. exact SF.
Qed.
Lemma code_kept_split a b : Forall has_code a -> (forall y r, b = y :: r -> ~ has_code y) -> code_kept (a ++ b) = a ++ map without_code b.
Proof.
  intros A B. induction A as [|s a C A IH]; cbn [app code_kept].
  - destruct b as [|y r]; [reflexivity|]. cbn [code_kept]. specialize (B y r eq_refl). unfold has_code in B.
    destruct (sc_events y); [|elim B; left; discriminate]. destruct (sc_more_blocks y); [reflexivity|elim B; right; discriminate].
  - rewrite IH. unfold has_code in C. destruct (sc_events s); [|reflexivity]. destruct (sc_more_blocks s); [|reflexivity]. destruct C as [C|C]; congruence.
Qed.
Definition no_views (p : sw_project) : bool := forallb (fun l : list aview => match l with [] => true | _ => false end) (all_layouts p).
Lemma no_views_all p : no_views p = true <-> forall l, In l (all_layouts p) -> l = [].
Proof.
  unfold no_views. rewrite forallb_forall. split; intros H l I; specialize (H l I); [destruct l; [reflexivity|discriminate]|now subst l].
Qed.
Definition button_kept (p : sw_project) (s : screen) : screen := if no_views p then without_button s else s.
Lemma remains_screens p : sp_screens (remains p) = map (button_kept p) (code_kept (sp_screens p)).
Proof. unfold remains, button_kept. cbn [sp_screens]. fold (no_views p). destruct (no_views p); [reflexivity|]. symmetry. apply map_id. Qed.
(** the view file *)
Lemma view_reads p q dt : ready_project p -> project_fits p dt -> project_into p = Ok q -> (forall a l m b, all_layouts p = a ++ l :: m :: b -> l = []) ->
  view_parse (view_reconstruct (pp_view q)) = Ok {| vw_layouts := vw_layouts (pp_view q); vw_fabs := if no_views p then [] else vw_fabs (pp_view q) |}.
Proof.
  intros RP PF H SL. pose proof (fits_typed p q dt RP PF H) as (_ & _ & _ & _ & V & _). pose proof RP as (RS & _ & N1 & N2). destruct (into_exact p q H N1 N2) as (ls & _ & _ & EV & EB).
  pose proof (layouts_named p) as ALL. destruct (no_views p) eqn:NV.
  - assert (Z : Forall (fun kv => snd kv = []) (vw_layouts (pp_view q))).
    { rewrite EV. apply Forall_map, Forall_forall. intros nl I. cbn [snd]. apply flatten_nil. apply (proj1 (no_views_all p) NV). rewrite ALL. now apply in_map. }
    destruct (vw_fabs (pp_view q)) as [|f fs] eqn:F; [|apply C20_fabs_lost_refuted; [exact V|exact Z|congruence]].
    replace {| vw_layouts := vw_layouts (pp_view q); vw_fabs := [] |} with (pp_view q) by (destruct (pp_view q); cbn in *; congruence).
    apply C20_exact; [exact V|]. split; [|now left]. intros pre x y post E. rewrite Forall_forall in Z. apply Z. rewrite E. apply in_or_app. right. now left.
  - replace {| vw_layouts := vw_layouts (pp_view q); vw_fabs := vw_fabs (pp_view q) |} with (pp_view q) by (destruct (pp_view q); reflexivity).
    apply C20_exact; [exact V|]. apply (apart_view p q RP H SL). right.
    destruct (all_layouts p) as [|l pre _] eqn:E using rev_ind; [exfalso; unfold no_views in NV; rewrite E in NV; discriminate|].
    destruct l as [|x l]; [|eauto]. exfalso. apply not_true_iff_false in NV. apply NV. apply no_views_all. rewrite E. intros l I. apply in_app_or in I as [I|[<-|[]]]; [|reflexivity].
    apply in_split in I as (u & w & ->). destruct w as [|y w]; eapply SL; rewrite <- app_assoc; reflexivity.
Qed.
(** what is read, but for the resource files, and the screens and custom views made of it *)
Definition read_parts (t : N) (q : parsed_project) (fl : file) (fabs : smap android_view) (g : logic) (rf : option res_files) : parsed_project :=
  {| pp_project := with_created t (pp_project q); pp_file := fl; pp_library := pp_library q; pp_resource := pp_resource q;
     pp_view := {| vw_layouts := vw_layouts (pp_view q); vw_fabs := fabs |}; pp_logic := g; pp_resource_files := rf |}.
Lemma remains_parts mv p q dt r t : ready_project p -> project_fits p dt -> project_into p = Ok q -> into_raw q r ->
  date_de (date_text dt) = @Ok unit N t -> (forall a l m b, all_layouts p = a ++ l :: m :: b -> l = []) ->
  exists fl fabs g ss ls2 cv,
    (project_parse (rp_project r) = Ok (with_created t (pp_project q)) /\ file_parse (rp_file r) = Ok fl /\ library_parse (rp_library r) = Ok (pp_library q) /\
     resource_parse (rp_resource r) = Ok (pp_resource q) /\ view_parse (rp_view r) = Ok {| vw_layouts := vw_layouts (pp_view q); vw_fabs := fabs |} /\
     logic_parse mv (rp_logic r) = Ok g) /\
    take_screens (f_activities fl) (vw_layouts (pp_view q)) g fabs = Ok (ss, ls2) /\ take_custom_views (f_custom_views fl) ls2 = Ok cv /\
    Forall2 same_screen (sp_screens (remains p)) ss /\ Forall2 same_custom_view (sp_custom_views (remains p)) cv.
Proof.
  intros RP PF H W TD SL. destruct (plain_parts p q dt r RP PF H W) as (PP & D2 & LB & RB & D5 & D6). rewrite TD in PP. cbn [bind] in PP.
  pose proof (view_reads p q dt RP PF H SL) as VR. destruct (logic_reads mv p q dt RP PF H) as (a & b & g & AB & CA & CB & GB & GS & GN).
  pose proof RP as (RS & RC & N1 & N2). pose proof H as H0. apply into_inv in H0 as (lays & imf & sof & fof & PS & R1 & R2 & R3 & VL & EPJ & ELB & EA & EC & RF).
  set (fabs := if no_views p then [] else vw_fabs (pp_view q)) in *.
  set (fl := match sp_screens p with [] => {| f_activities := []; f_custom_views := [] |} | _ => pp_file q end).
  assert (FP : file_parse (rp_file r) = Ok fl).
  { rewrite D2. unfold fl. destruct (sp_screens p) as [|s0 l0] eqn:E0; [destruct (sp_custom_views p) as [|c0 m0] eqn:E1|].
    - replace {| f_activities := []; f_custom_views := [] |} with (pp_file q) by (destruct (pp_file q); cbn in *; congruence). apply C16_roundtrip_partial. right. exact EC.
    - apply C16_refuted; [exact EA|rewrite EC; discriminate].
    - apply C16_roundtrip_partial. left. rewrite EA. discriminate. }
  exists fl, fabs, g.
  apply put_screens_get in PS as (_ & _ & _ & G2). assert (NL : NoDup (map sc_layout_name (sp_screens p))) by (apply NoDup_app_inv in N1; tauto). specialize (G2 NL (fun _ _ => eq_refl)).
  destruct (put_custom_views_get (sp_custom_views p) lays) as [C1 _].
  assert (LY : forall s, In s (a ++ b) -> sget (sc_layout_name s) (vw_layouts (pp_view q)) = Some (flatten_views (sc_layout s) None None) /\
                 same_fab (sc_fab (button_kept p s)) (option_map view_from (sget (sc_layout_name s) fabs))).
  { intros s I. rewrite <- AB in I. destruct (G2 s I) as [L1 L2]. split.
    - rewrite VL, C1; [exact L1|]. apply NoDup_app_inv in N1 as (_ & _ & D). apply D. now apply in_map.
    - unfold button_kept, fabs. destruct (no_views p); [exact Logic.I|]. rewrite L2. unfold fab_raw. destruct (sc_fab s) as [[n ch]|]; cbn; [|exact Logic.I]. split; [apply fab_view|reflexivity]. }
  rewrite Forall_forall in RS.
  assert (XA : exists sa, Forall2 (fun s s' => reads_screen (vw_layouts (pp_view q)) g fabs [] (activity_of s) s' /\ same_screen (button_kept p s) s') a sa).
  { apply Forall_Forall2. intros s I. destruct (GS s (in_or_app _ _ _ (or_introl I))) as (lg & L & _ & G & _). destruct (LY s (in_or_app _ _ _ (or_introl I))) as [L1 L2].
    destruct (RS s) as (J & NM & NC & GD & LO); [rewrite AB; apply in_or_app; now left|]. destruct (layout_back _ LO) as (views & VB & SLA).
    eapply (reads_screen_gen _ _ _ s (button_kept p s) lg); [exact J|now apply G|apply (logic_name s lg L)|exact L1|exact VB| | |exact L2|].
    - unfold button_kept. destruct (no_views p); exact SLA.
    - unfold button_kept, same_settings_of. destruct (no_views p); repeat split.
    - intros fab. destruct (proj2 (logic_back_iff s (sc_layout_name s) (sl_name lg) (activity_of s) (flatten_views (sc_layout s) None None) fab views NM NC VB) GD) as (lg' & s' & L' & P & SM).
      assert (lg' = lg) as -> by congruence. exists s'. split; [exact P|]. unfold button_kept. destruct (no_views p); exact SM. }
  assert (XB : exists sb, Forall2 (fun s s' => reads_screen (vw_layouts (pp_view q)) g fabs [] (activity_of s) s' /\ same_screen (button_kept p (without_code s)) s') b sb).
  { apply Forall_Forall2. intros s I. destruct (GS s (in_or_app _ _ _ (or_intror I))) as (lg & L & _ & _ & G). destruct (LY s (in_or_app _ _ _ (or_intror I))) as [L1 L2].
    destruct (RS s) as (J & NM & NC & GD & LO); [rewrite AB; apply in_or_app; now right|]. destruct (layout_back _ LO) as (views & VB & SLA).
    eapply (reads_screen_gen _ _ _ s (button_kept p (without_code s)) (without_containers lg)); [exact J|now apply G|apply (logic_name s lg L)|exact L1|exact VB| | | |].
    - unfold button_kept. destruct (no_views p); exact SLA.
    - unfold button_kept, same_settings_of. destruct (no_views p); repeat split.
    - unfold button_kept in *. destruct (no_views p); exact L2.
    - intros fab. destruct (cut_back s lg (sc_layout_name s) (sl_name (without_containers lg)) (activity_of s) (flatten_views (sc_layout s) None None) fab views NM NC GD VB L) as (s' & P & SM).
      exists s'. split; [exact P|]. unfold button_kept. destruct (no_views p); exact SM. }
  destruct XA as (sa & XA). destruct XB as (sb & XB). apply Forall2_both in XA as [XA1 XA2]. apply Forall2_both in XB as [XB1 XB2].
  assert (SC : Forall2 same_screen (sp_screens (remains p)) (sa ++ sb)).
  { rewrite remains_screens, AB, (code_kept_split a b CA CB), map_app, map_map. apply Forall2_app; apply Forall2_map_l; assumption. }
  destruct (ready_screens_back p q RP H) as (ss & lays2 & cvs & S & C & _ & SCV). apply take_screens_iff in S as (_ & -> & _).
  assert (NE : map fi_filename (map activity_of (sp_screens p)) = map sc_layout_name (sp_screens p)) by (rewrite map_map; reflexivity).
  assert (NE2 : map view_name_to_logic (map sc_layout_name (sp_screens p)) = map sc_java_name (sp_screens p)).
  { clear -RS. rewrite map_map. apply map_ext_in. intros s I. destruct (RS s I) as (J & _). auto. }
  assert (TS : take_screens (map activity_of (sp_screens p)) (vw_layouts (pp_view q)) g fabs = Ok (sa ++ sb, rm_all (map fi_filename (map activity_of (sp_screens p))) (vw_layouts (pp_view q)))).
  { apply take_screens_nodup; [now rewrite NE|now rewrite NE, NE2|]. rewrite AB. apply Forall2_map_l. now apply Forall2_app. }
  assert (FIN : exists ls2 cv, take_screens (f_activities fl) (vw_layouts (pp_view q)) g fabs = Ok (sa ++ sb, ls2) /\ take_custom_views (f_custom_views fl) ls2 = Ok cv /\
                 Forall2 same_custom_view (sp_custom_views (remains p)) cv).
  { unfold fl. cbn [sp_custom_views remains]. destruct (sp_screens p) as [|s0 l0] eqn:E0.
    - assert (a = []) as -> by (destruct a; [reflexivity|discriminate AB]). assert (b = []) as -> by (destruct b; [reflexivity|discriminate AB]). inversion XA1; inversion XB1; subst.
      eexists _, []. split; [reflexivity|]. split; [reflexivity|constructor].
    - rewrite EA. eexists _, cvs. split; [exact TS|]. rewrite EA in C. split; [exact C|exact SCV]. }
  destruct FIN as (ls2 & cv & TS' & TC & SCV').
  exists (sa ++ sb), ls2, cv. split; [|auto]. rewrite D5, D6. auto 10.
Qed.
Lemma remains_meta rnd p q t fl fabs g rf p' : project_into p = Ok q -> project_try_from rnd (read_parts t q fl fabs g rf) = Ok p' ->
  sp_metadata p' = sp_metadata (created_at t p) /\ sp_colors p' = sp_colors p.
Proof.
  intros H K. apply into_inv in H as (lays & imf & sof & fof & _ & _ & _ & _ & _ & EPJ & _).
  pose proof (try_from_meta _ _ _ K) as MT. cbn [read_parts pp_project] in MT. rewrite EPJ in MT. unfold project_of in MT. cbn [created_at sp_metadata].
  destruct (sp_metadata p), (sp_metadata p'), (sp_colors p), (sp_colors p'); cbn in MT; injection MT as -> -> -> -> -> -> -> -> -> -> -> -> ->; split; reflexivity.
Qed.
Lemma remains_read mv ex rnd p q dt r t : ready_project p -> ready_resources (sp_resources p) -> sp_automatic p = false -> project_fits p dt -> project_into p = Ok q -> into_raw q r ->
  date_de (date_text dt) = @Ok unit N t -> (forall a l m b, all_layouts p = a ++ l :: m :: b -> l = []) ->
  exists v p', parse_from mv ex r = Ok v /\ project_try_from rnd v = Ok p' /\ same_project (remains (created_at t p)) p' /\ sp_custom_icon p' = None /\
    Forall2 (fun a b => fst b = fst a /\ Forall2 (numbered_resource (fst a)) (snd a) (snd b)) (resources_of (sp_resources p)) (resources_of (sp_resources p')).
Proof.
  intros RP RR A PF H W TD SL. destruct (remains_parts mv p q dt r t RP PF H W TD SL) as (fl & fabs & g & ss & ls2 & cv & (Q1 & Q2 & Q3 & Q4 & Q5 & Q6) & TS & TC & SC & SCV).
  pose proof H as H0. apply into_inv in H0 as (lays & imf & sof & fof & _ & R1 & R2 & R3 & _ & _ & _ & _ & _ & RF). rewrite A in RF, R1, R2, R3.
  set (v := read_parts t q fl fabs g None). exists v. assert (PV : parse_from mv ex r = Ok v).
  { apply parse_from_ok. repeat (split; [assumption|]). destruct W as [_ W]. rewrite RF in W. now rewrite W. }
  destruct (library_back 0 p q H) as (F1 & F2 & F3 & F4 & _).
  destruct (numbered_back RImage (rnd RImage) _ _ _ (proj1 (RR RImage _ (or_introl eq_refl))) R1) as (im & T1 & M1).
  destruct (numbered_back RSound (rnd RSound) _ _ _ (proj1 (RR RSound _ (or_intror (or_introl eq_refl)))) R2) as (so & T2 & M2).
  destruct (numbered_back RFont (rnd RFont) _ _ _ (proj1 (RR RFont _ (or_intror (or_intror (or_introl eq_refl))))) R3) as (fo & T3 & M3).
  destruct (try_from_intro rnd v ss ls2 cv _ _ _ im so fo TS TC F1 F2 F3 T1 T2 T3) as (p' & K & P1 & P2 & P3 & P4).
  exists p'. split; [exact PV|]. split; [exact K|]. split; [|split].
  - destruct (remains_meta _ _ _ _ _ _ _ _ _ H K) as [M4 M5]. split; [exact M4|]. split; [exact M5|]. rewrite P1, P2, P3. split; [|split; [exact SC|exact SCV]].
    cbn [v read_parts pp_library remains created_at sp_libraries]. rewrite F4. destruct (sp_libraries p); reflexivity.
  - apply try_from_inv in K as (? & ? & ? & ? & _ & _ & _ & _ & _ & _ & _ & _ & _ & _ & I & _). exact I.
  - rewrite P4. unfold resources_of. cbn. constructor; [auto|]. constructor; [auto|]. constructor; [auto|constructor].
Qed.
Lemma code_kept_length l : length (code_kept l) = length l.
Proof. induction l as [|s l IH]; [reflexivity|]. cbn [code_kept]. destruct (sc_events s), (sc_more_blocks s); cbn [length map]; rewrite ?map_length; congruence. Qed.
Lemma code_kept_layouts l : map sc_layout (code_kept l) = map sc_layout l.
Proof. induction l as [|s l IH]; [reflexivity|]. cbn [code_kept]. destruct (sc_events s), (sc_more_blocks s); cbn [map]; rewrite ?map_map, ?IH; reflexivity. Qed.
Lemma first_blank l : exists a b, l = a ++ b /\ Forall has_code a /\ forall y r, b = y :: r -> ~ has_code y.
Proof.
  induction l as [|s l (a & b & -> & A & B)]; [exists [], []; repeat split; [constructor|discriminate]|].
  destruct (sc_events s) as [|e es] eqn:E; [destruct (sc_more_blocks s) as [|m ms] eqn:M|].
  - exists [], (s :: a ++ b). repeat split; [constructor|]. intros y r [= <- _] [X|X]; congruence.
  - exists (s :: a), b. repeat split; [constructor; [right; congruence|exact A]|exact B].
  - exists (s :: a), b. repeat split; [constructor; [left; congruence|exact A]|exact B].
Qed.
Lemma without_code_idle s : idle (without_code s).
Proof.
  split; cbn [without_code sc_events sc_more_blocks].
  - intros e I. apply in_map_iff in I as (x & <- & I). apply filter_In in I as [_ I]. cbn. destruct (list_eq_dec _ _ _); [discriminate|]. auto.
  - intros k m I. apply in_map_iff in I as (x & [= <- <-] & _). reflexivity.
Qed.
Lemma button_kept_code p s : (has_code (button_kept p s) <-> has_code s) /\ (idle (button_kept p s) <-> idle s).
Proof. unfold button_kept. destruct (no_views p); split; reflexivity. Qed.
Lemma code_kept_idle p l a s b t c : map (button_kept p) (code_kept l) = a ++ s :: b ++ t :: c -> ~ has_code s -> idle t.
Proof.
  destruct (first_blank l) as (x & y & -> & X & Y). rewrite (code_kept_split x y X Y), map_app, map_map. intros E N.
  assert (I : forall i u, nth_error (map (button_kept p) x ++ map (fun z => button_kept p (without_code z)) y) i = Some u -> (i < length x)%nat /\ has_code u \/ (length x <= i)%nat /\ idle u).
  { intros i u K. destruct (Nat.lt_ge_cases i (length x)) as [L|L].
    - left. split; [exact L|]. rewrite nth_error_app1 in K by now rewrite map_length. rewrite nth_error_map in K. destruct (nth_error x i) as [w|] eqn:W; [|discriminate]. injection K as <-.
      apply button_kept_code. rewrite Forall_forall in X. apply X. eapply nth_error_In; eauto.
    - right. split; [exact L|]. rewrite nth_error_app2 in K by now rewrite map_length. rewrite nth_error_map in K. destruct (nth_error y _) as [w|]; [|discriminate]. injection K as <-.
      apply button_kept_code, without_code_idle. }
  rewrite E in I. destruct (I (length a) s) as [[_ H]|[L _]]; [now rewrite nth_error_app2, Nat.sub_diag by auto|contradiction|].
  destruct (I (length a + S (length b))%nat t) as [[L2 _]|[_ H]]; [|lia|exact H].
  rewrite nth_error_app2 by lia. replace (length a + S (length b) - length a)%nat with (S (length b)) by lia. cbn. rewrite nth_error_app2, Nat.sub_diag by auto. reflexivity.
Qed.
Lemma without_code_twice s : without_code (without_code s) = without_code s.
Proof.
  unfold without_code. cbn [sc_layout_name sc_java_name sc_layout sc_variables sc_list_variables sc_more_blocks sc_components sc_events sc_fab sc_fullscreen sc_toolbar sc_drawer sc_fab_enabled sc_orientation sc_theme sc_keyboard].
  f_equal; [rewrite map_map; reflexivity|]. induction (sc_events s) as [|e l IH]; [reflexivity|]. cbn [filter]. destruct (list_eq_dec N.eq_dec (ae_name e) _) as [E|E]; [exact IH|].
  cbn [map filter ae_name ae_type]. destruct (list_eq_dec N.eq_dec (ae_name e) _) as [E'|_]; [contradiction|]. cbn [map ae_name ae_type]. now rewrite IH.
Qed.
Lemma without_code_blank s : ~ has_code s -> ~ has_code (without_code s).
Proof. unfold has_code, without_code. cbn. destruct (sc_events s), (sc_more_blocks s); cbn; intuition congruence. Qed.
Lemma code_kept_twice p l : code_kept (map (button_kept p) (code_kept l)) = map (button_kept p) (code_kept l).
Proof.
  destruct (first_blank l) as (x & y & -> & X & Y). rewrite (code_kept_split x y X Y), map_app, map_map, code_kept_split.
  - f_equal. rewrite map_map. apply map_ext. intros s. unfold button_kept. destruct (no_views p); [|apply without_code_twice].
    change (without_button (without_code (without_code s)) = without_button (without_code s)). now rewrite without_code_twice.
  - apply Forall_map. eapply Forall_impl; [|exact X]. intros s. apply button_kept_code.
  - intros z r E. destruct y as [|w y]; [discriminate|]. injection E as <- _. intros C. apply (proj1 (proj1 (button_kept_code p _))) in C. revert C. apply without_code_blank. eapply Y. reflexivity.
Qed.
Lemma button_kept_twice p q l : no_views q = no_views p \/ l = [] -> map (button_kept q) (map (button_kept p) l) = map (button_kept p) l.
Proof.
  intros [E| ->]; [|reflexivity]. rewrite map_map. apply map_ext. intros s. unfold button_kept. rewrite E. destruct (no_views p); reflexivity.
Qed.
Lemma remains_layouts p : all_layouts (remains p) = match sp_screens p with [] => [] | _ => all_layouts p end.
Proof.
  unfold all_layouts. rewrite remains_screens. destruct (sp_screens p) as [|s l] eqn:E; [unfold remains; cbn [sp_custom_views]; now rewrite E|].
  rewrite map_map, (map_ext (fun x => sc_layout (button_kept p x)) sc_layout) by (intros x; unfold button_kept; destruct (no_views p); reflexivity).
  f_equal; [|unfold remains; cbn [sp_custom_views]; now rewrite E]. apply code_kept_layouts.
Qed.
Lemma remains_twice p : remains (remains p) = remains p.
Proof.
  assert (S : sp_screens (remains (remains p)) = sp_screens (remains p)).
  { rewrite remains_screens, (remains_screens p), code_kept_twice. apply button_kept_twice. unfold no_views. rewrite remains_layouts. destruct (sp_screens p); [right|left]; reflexivity. }
  assert (C : sp_custom_views (remains (remains p)) = sp_custom_views (remains p)).
  { unfold remains at 1. cbn [sp_custom_views]. destruct (sp_screens (remains p)) eqn:E; [|reflexivity]. rewrite remains_screens in E. apply map_eq_nil in E. apply (f_equal (@length screen)) in E.
    rewrite code_kept_length in E. destruct (sp_screens p) eqn:E2; [|discriminate]. unfold remains. cbn [sp_custom_views]. now rewrite E2. }
  assert (X : forall u w : sw_project, sp_custom_icon u = sp_custom_icon w -> sp_metadata u = sp_metadata w -> sp_colors u = sp_colors w -> sp_screens u = sp_screens w ->
              sp_custom_views u = sp_custom_views w -> sp_libraries u = sp_libraries w -> sp_resources u = sp_resources w -> sp_automatic u = sp_automatic w -> u = w).
  { intros [] []. cbn. intros. congruence. }
  apply X; first [exact S|exact C|reflexivity].
Qed.

(** ** The icon as the only file *)
Lemma take_few ty rnd l m : (m = [] \/ exists n w, m = [(n, w)]) ->
  match take_resources ty rnd 0 l (Some m) with
  | Ok ws => (l = [] /\ ws = []) \/ exists n w it, m = [(n, w)] /\ l = [it] /\ ri_full_name it = n /\ ws = [(ri_name it, w)]
  | Err e => l <> [] /\ (forall n w it, m = [(n, w)] -> l = [it] -> ri_full_name it <> n) /\ exists id n, e = XMissingResourceFile id n ty
  | Panic => False
  end.
Proof.
  intros M. destruct l as [|it l]; [cbn; now left|]. cbn [take_resources].
  destruct M as [-> |(n & w & ->)].
  - cbn. split; [discriminate|]. split; [discriminate|eauto].
  - assert (G : sget (ri_full_name it) [(n, w)] = if str_eqb (ri_full_name it) n then Some w else None) by reflexivity.
    assert (X : sremove (ri_full_name it) [(n, w)] = if str_eqb (ri_full_name it) n then [] else [(n, w)]) by reflexivity.
    rewrite G, X. destruct (str_eqb_spec (ri_full_name it) n) as [E|E].
    + cbn [ok_or bind]. destruct l as [|it2 l].
      * cbn. right. exists n, w, it. auto.
      * cbn. split; [discriminate|]. split; [discriminate|eauto].
    + cbn. split; [discriminate|]. split; [|eauto]. intros n' w' it' [= <- <-] [= <-]. exact E.
Qed.
