(** Properties C85 and C86: a project of the API, its data files, and the project that is loaded from them
    (/repo/src/api/mod.rs L303-450, L487-675, /repo/src/parser/mod.rs L153-240, /repo/src/parser/raw.rs L20-96). *)
From Coq Require Import Lia Permutation.
From Verif Require Import Base Str Flt Json Utf8 Crypto M_Color M_Date M_Raw M_Project M_File M_Library M_Resource M_View M_Logic M_Parsed A_Block A_View A_Screen A_Project
  Spec SpecBlock SpecView SpecScreen SpecProject SpecLoad SpecSave ViewTreeProofs ScreenProofs ApiProjectProofs ResFilesProofs DateProofs ProjectProofs ViewFileProofs SpecDate DateTextProofs DateBackProofs SaveProofs RemainProofs IconProofs SpecStrings StringsProofs StringsApiProofs
  P_Crypto P_Files P_Project P_View P_Logic P_Parsed P_ApiView P_Screen P_ApiProject P_Loading.

(** Loading depends on the maps of a parsed project only through what is found under each name, not on their order. *)
Definition same_maps (v v' : parsed_project) : Prop :=
  pp_project v' = pp_project v /\ pp_file v' = pp_file v /\ pp_library v' = pp_library v /\ pp_resource v' = pp_resource v /\
  (forall k, sget k (vw_layouts (pp_view v')) = sget k (vw_layouts (pp_view v))) /\
  (forall k, sget k (vw_fabs (pp_view v')) = sget k (vw_fabs (pp_view v))) /\
  (forall k, sget k (pp_logic v') = sget k (pp_logic v)) /\
  match pp_resource_files v, pp_resource_files v' with None, None => True | Some f, Some g => same_files f g | _, _ => False end.
Theorem C85_order rnd v v' : same_maps v v' -> project_try_from rnd v' = project_try_from rnd v.
Proof. intros (A & B & C & D & E & F & G & H). apply try_from_alike. repeat (split; [assumption|]). split; [|exact H]. intros k. left. apply G. Qed.
Print Assumptions C85_order.

(** the project that is loaded from the raw project, and what has become of [p] in it: all but the resource files and the icon *)
Definition loaded (mv : bool) (ex : str -> bool) (rnd : res_type -> nat -> N) (r : raw_project) (p' : sw_project) : Prop :=
  exists v, parse_from mv ex r = Ok v /\ project_try_from rnd v = Ok p'.
Definition comes_back (p p' : sw_project) : Prop :=
  same_project p p' /\ sp_custom_icon p' = None /\
  Forall2 (fun a b => fst b = fst a /\ Forall2 (numbered_resource (fst a)) (snd a) (snd b)) (resources_of (sp_resources p)) (resources_of (sp_resources p')).
(** What holds: a project that is ready, fits and can be told apart can be written, and whatever the order in which
    the maps are written, loading gives it back. *)
Theorem C85_partial mv ex rnd p dt : ready_project p -> ready_resources (sp_resources p) -> sp_automatic p = false ->
  project_fits p dt -> told_apart p dt ->
  (exists r, project_into_raw p r) /\
  forall r, project_into_raw p r -> exists p', loaded mv ex rnd r p' /\ comes_back p p'.
Proof.
  intros RP RR A PF TA. destruct (C46_partial rnd p RP RR) as (q & H & B & _). destruct (B A) as (p' & K & S & I & F). clear B.
  pose proof (fits_typed p q dt RP PF H) as T. pose proof H as H0. apply into_inv in H0 as (lays & imf & sof & fof & _ & _ & _ & _ & _ & _ & _ & _ & _ & RF). rewrite A in RF.
  split; [destruct (C50_written q dt T) as (r & W); exists r, q; auto|].
  intros r (q' & H' & W). rewrite H in H'. injection H' as <-. destruct (reads_back mv ex p q dt r RP PF TA H) as (v & P & AL); [rewrite RF; discriminate|exact W|].
  exists p'. split; [|split; [|split]]; auto. exists v. split; [exact P|]. now rewrite (try_from_alike rnd q v AL).
Qed.
Print Assumptions C85_partial.
(** Exact: without these conditions it does not. *)
Theorem C85_exact mv ex rnd p dt r : ready_project p -> ready_resources (sp_resources p) -> sp_automatic p = false -> project_fits p dt ->
  project_into_raw p r -> ((exists p', loaded mv ex rnd r p' /\ comes_back p p') <-> told_apart p dt).
Proof.
  intros RP RR A PF W. split; [|intros TA; destruct (C85_partial mv ex rnd p dt RP RR A PF TA) as (_ & L); auto].
  intros (p' & (v & P & K) & S & _). destruct W as (q & H & W). exact (apart_needed mv ex rnd p q dt r v p' RP PF H W P K S).
Qed.
Print Assumptions C85_exact.
(** The same through the encrypted files, for a project whose texts are texts ([str]: no surrogates). *)
Theorem C85_encrypted_partial mv ex rnd p dt r : ready_project p -> ready_resources (sp_resources p) -> sp_automatic p = false ->
  project_fits p dt -> told_apart p dt -> project_into_raw p r -> Forall string_ok (sw_texts p) ->
  let on_disk t := encrypt_sw (utf8_encode t) in
  exists r' p', from_encrypted_wo_res (on_disk (rp_project r)) (on_disk (rp_file r)) (on_disk (rp_library r)) (on_disk (rp_resource r))
                  (on_disk (rp_view r)) (on_disk (rp_logic r)) = Ok r' /\ loaded mv ex rnd r' p' /\ comes_back p p'.
Proof.
  intros RP RR A PF TA W ST. cbv zeta. destruct (C85_partial mv ex rnd p dt RP RR A PF TA) as (_ & L). destruct (L r W) as (p' & K).
  exists r, p'. split; [|exact K]. destruct W as (q & H & W). pose proof (ok_into_raw q r (ok_into p q ST H) W) as TR. unfold raw_texts, oks in TR. rewrite Forall_app in TR.
  destruct TR as [TR _]. destruct (C04_encrypted_project _ _ _ _ _ _ [] TR) as (_ & ->). destruct W as (_ & RF). apply into_inv in H as (lays & imf & sof & fof & _ & _ & _ & _ & _ & _ & _ & _ & _ & E). rewrite A in E. rewrite E in RF.
  destruct r. cbn in *. now rewrite RF.
Qed.
Print Assumptions C85_encrypted_partial.
(** With automatic resources, a project without resources comes back with its icon iff the icon lies in a folder for icons as well. *)
Theorem C85_icon_exact mv ex rnd p dt : ready_project p -> sp_resources p = resources_empty -> sp_automatic p = true -> project_fits p dt ->
  (exists r, project_into_raw p r) /\
  forall r, project_into_raw p r ->
    ((exists p', loaded mv ex rnd r p' /\ same_project p p' /\ sp_custom_icon p' = sp_custom_icon p /\ sp_resources p' = resources_empty) <->
     told_apart p dt /\ forall w, sp_custom_icon p = Some w -> exists n, wrapper_class ex w RCustomIcon n).
Proof.
  intros RP RE A PF. assert (RR : ready_resources (sp_resources p)).
  { rewrite RE. intros t m [[= <- <-]|[[= <- <-]|[[= <- <-]|[]]]]; split; constructor. }
  destruct (C46_partial rnd p RP RR) as (q & H & _ & B & _). destruct (B A RE) as (p1 & K & S & I & F). clear B.
  pose proof (fits_typed p q dt RP PF H) as T. pose proof H as H0. apply into_inv in H0 as (lays & imf & sof & fof & _ & R1 & R2 & R3 & _ & _ & _ & _ & _ & RF).
  rewrite A, RE in *. cbn in R1, R2, R3. injection R1 as _ <-. injection R2 as _ <-. injection R3 as _ <-.
  split; [destruct (C50_written q dt T) as (r & W); exists r, q; auto|].
  intros r (q' & H' & W). rewrite H in H'. injection H' as <-. split.
  - intros (p' & (v & P & K') & S' & I' & _). split; [exact (apart_needed mv ex rnd p q dt r v p' RP PF H W P K' S')|].
    intros w IC. rewrite IC in I'. destruct W as (_ & W). rewrite RF in W. destruct W as (ws & EW & RI). apply parse_from_ok in P as (_ & _ & _ & _ & _ & _ & P). rewrite EW in P.
    destruct P as (g & P & EG). apply collect_filed in P as (_ & P & _). assert (IG : sp_custom_icon p' = rf_custom_icon g).
    { apply C66_reads in K'. destruct K' as (ss & _ & X). destruct ss as [ss| |]; cbn [after] in X; try discriminate X.
      destruct X as (cvs & _ & X). destruct cvs as [cvs| |]; cbn [after] in X; try discriminate X.
      destruct X as (fb & _ & X). destruct fb as [fb| |]; cbn [after] in X; try discriminate X.
      destruct X as (am & _ & X). destruct am as [am| |]; cbn [after] in X; try discriminate X.
      destruct X as (gm & _ & X). destruct gm as [gm| |]; cbn [after] in X; try discriminate X.
      destruct X as (im & _ & X). destruct im as [im| |]; cbn [after] in X; try discriminate X.
      destruct X as (so & _ & X). destruct so as [so| |]; cbn [after] in X; try discriminate X.
      destruct X as (fo & _ & X). destruct fo as [fo| |]; cbn [after] in X; try discriminate X.
      destruct X as (c & _ & X). injection X as ->. cbn [sp_custom_icon]. now rewrite EG. }
    rewrite I' in IG. symmetry in IG. apply P in IG as (a & b & _ & C & _). exact C.
  - intros (TA & IC). destruct (reads_back mv ex p q dt r RP PF TA H) as (v & P & AL); [|exact W|].
    + rewrite RF. intros f [= <-]. split; [split; [exact IC|]; repeat split; cbn; discriminate|repeat split; constructor].
    + exists p1. split; [|auto]. exists v. split; [exact P|]. now rewrite (try_from_alike rnd q v AL).
Qed.
Print Assumptions C85_icon_exact.
(** False in general: a project with a view in a layout that is not the last one cannot be loaded from what is written. *)
Theorem C85_refuted mv ex rnd p dt a l m b : ready_project p -> project_fits p dt -> all_layouts p = a ++ l :: m :: b -> l <> [] ->
  forall r, project_into_raw p r -> forall p', ~ loaded mv ex rnd r p'.
Proof.
  intros RP PF E N r (q & H & W) p' (v & K & _). pose proof (fits_typed p q dt RP PF H) as (_ & _ & _ & _ & VT & _).
  destruct RP as (_ & _ & N1 & N2). destruct (into_exact p q H N1 N2) as (ls & _ & _ & EV & _).
  assert (ALL : all_layouts p = map snd (named_layouts p)) by (unfold all_layouts, named_layouts; rewrite map_app, !map_map; reflexivity).
  rewrite ALL in E. apply map_eq_app in E as (m1 & m2 & E1 & <- & E2). destruct m2 as [|[n1 l1] [|[n2 l2] m2]]; try discriminate E2. injection E2 as -> -> <-.
  rewrite E1, map_app in EV. cbn [map fst snd] in EV. eapply (C50_refuted mv ex q r _ _ _ _ _ _ VT EV); [|exact W|exact K]. now rewrite flatten_nil.
Qed.
Print Assumptions C85_refuted.
Definition project85 (cvs : list custom_view) : sw_project :=
  let p := project46 false in
  let m := sp_metadata p in
  {| sp_custom_icon := sp_custom_icon p;
     sp_metadata := {| md_local_id := 601; md_name := lit "App"; md_workspace_name := lit "ws"; md_package_name := lit "a.b"; md_time_created := 1636974733; md_sketchware_version := 150;
                       md_version_name := lit "1.0"; md_version_code := 1 |};
     sp_colors := sp_colors p; sp_screens := sp_screens p; sp_custom_views := cvs; sp_libraries := sp_libraries p; sp_resources := sp_resources p; sp_automatic := false |}.
Lemma screen46_ready : ready_screen screen46.
Proof. destruct (C46_example false) as ((R & _) & _). now apply Forall_inv in R. Qed.
Ltac leaf := first [vm_compute; reflexivity | split; vm_compute; (reflexivity || discriminate) | vm_compute; discriminate].
Lemma raw_fits x : forallb (fun n => n <? 2 ^ 32) [av_divider_height x; av_index x; av_max x; av_progress x; lc_margin_bottom (av_layout x); lc_margin_left (av_layout x); lc_margin_right (av_layout x);
    lc_margin_top (av_layout x); lc_padding_bottom (av_layout x); lc_padding_left (av_layout x); lc_padding_right (av_layout x); lc_padding_top (av_layout x); lc_weight (av_layout x);
    lc_weight_sum (av_layout x); tc_line (av_text x); tc_text_size (av_text x); cval (lc_background_color (av_layout x)); cval (tc_hint_color (av_text x)); cval (tc_text_color (av_text x))] = true ->
  forallb (fun n => n <? 2 ^ 8) [av_first_day_of_week x; av_type x; lc_gravity (av_layout x); lc_layout_gravity (av_layout x)] = true ->
  forallb (fun z => (-128 <=? z)%Z && (z <? 128)%Z) [ic_rotate (av_image x); av_parent_type x; av_pre_index x; av_pre_parent_type x] = true ->
  forallb (fun s => match s with SFixed n => (0 <=? n)%Z && (n <? 2 ^ 31)%Z | _ => true end) [lc_height (av_layout x); lc_width (av_layout x)] = true ->
  forallb (fun f => canonical F32 f && match f with FNan | FInf _ => false | _ => true end) [av_alpha x; av_scale_x x; av_scale_y x; av_translation_x x; av_translation_y x] = true ->
  well_typed x /\ finite_floats x.
Proof.
  rewrite !forallb_forall. intros A B C D E. assert (A' : forall n, In n _ -> n < 2 ^ 32) by (intros n I; apply N.ltb_lt, A, I). clear A.
  assert (B' : forall n, In n _ -> n < 2 ^ 8) by (intros n I; apply N.ltb_lt, B, I). clear B.
  assert (LC : forall z, (-128 <=? z)%Z && (z <? 128)%Z = true -> (-128 <= z < 128)%Z).
  { intros z I. apply andb_prop in I as [I1 I2]. apply Z.leb_le in I1. apply Z.ltb_lt in I2. lia. }
  pose proof (fun z I => LC z (C z I)) as C'. clear C LC.
  assert (LD : forall s, match s with SFixed n => (0 <=? n)%Z && (n <? 2 ^ 31)%Z | _ => true end = true -> is_size s).
  { intros s I n ->. apply andb_prop in I as [I1 I2]. apply Z.leb_le in I1. apply Z.ltb_lt in I2. unfold P_View.is_i32. lia. }
  pose proof (fun z I => LD z (D z I)) as D'. clear D LD.
  assert (LE : forall f, canonical F32 f && match f with FNan | FInf _ => false | _ => true end = true -> finite_f32 f).
  { intros f I. apply andb_prop in I as [I1 I2]. split; [exact I1|]. destruct f; try discriminate I2; repeat split; discriminate. }
  pose proof (fun z I => LE z (E z I)) as E'. clear E LE.
  split.
  - unfold well_typed, is_u32, is_u8, is_i8, is_i16, P_View.is_i32, is_color. cbv zeta. cbn [In] in *.
    repeat match goal with |- _ /\ _ => split end; try (apply A'; tauto); try (apply B'; tauto); try (apply D'; tauto).
    all: match goal with |- (_ <= ?z)%Z => pose proof (C' z) | |- (?z < _)%Z => pose proof (C' z) end; lia.
  - unfold finite_floats. apply Forall_forall. exact E'.
Qed.
Ltac fits := apply raw_fits; vm_compute; reflexivity.
Lemma forest1_fits : Forall (fun x => well_typed x /\ finite_floats x) (flatten_views forest1 None None).
Proof. set (l := flatten_views forest1 None None). vm_compute in l. subst l. repeat (constructor; [fits|]). constructor. Qed.
Lemma plain_container (k : str) : existsb (N.eqb 10) k = false -> existsb (N.eqb 46) k = false ->
  Forall (fun s => forall a, lit "java_" ++ k <> a ++ s) [lit "java_var"; lit "java_list"; lit "java_components"; lit "java_events"; lit "java_func"] -> P_Logic.container_name k.
Proof.
  intros A B C. assert (NI : forall c, existsb (N.eqb c) k = false -> ~ In c k).
  { intros c E I. apply not_true_iff_false in E. apply E. apply existsb_exists. exists c. split; auto. apply N.eqb_refl. }
  split; [split; [now apply NI|]|].
  - intros a b E. apply (NI 46 B). rewrite E. apply in_or_app. right. now left.
  - intros s a I. rewrite Forall_forall in C. now apply C.
Qed.
Ltac not_end := let a := fresh in let E := fresh in intros a E; apply (f_equal (@rev N)) in E; rewrite !rev_app_distr in E; vm_compute in E; discriminate E.
Ltac ends := let a := fresh in let w := fresh in let E := fresh in
  intros a w E; apply (f_equal (@rev N)) in E; rewrite rev_app_distr in E; vm_compute in E; injection E as <- _; reflexivity.
Lemma screen46_fits : screen_fits screen46.
Proof.
  assert (CN : forall k, In k [lit "onCreate_initializeLogic"; lit "text1_onClick"; lit "say_moreBlock"] -> P_Logic.container_name k).
  { intros k [<-|[<-|[<-|[]]]]; apply plain_container; try reflexivity; repeat (constructor; [not_end|]); constructor. }
  split; [split; cbn; intuition discriminate|]. split; [exact (proj1 (Forall_forall _ _) forest1_fits)|].
  split; [intros v [= <-] x E; set (y := fab_of _) in E; vm_compute in y; subst y; injection E as <-; fits|]. split; [|split].
  - split; [repeat constructor; cbn; tauto|]. split; [repeat constructor; cbn; intuition discriminate|].
    intros r k x s c E L. destruct r as [|? [|? ?]]; inversion E; subst. cbn in L. destruct s as [|? [|? ?]]; inversion L. reflexivity.
  - split; [constructor|]. split; [constructor|]. intros r k x s c E. destruct r; discriminate E.
  - split; [|split; [|split]].
    + constructor; [|constructor; [|constructor]]; (split; [|split; [|split]]).
      * intros k [[_ ->]|[N _]]; [apply CN; cbn; auto|elim N; reflexivity].
      * ends.
      * discriminate.
      * intros c E. set (y := blocks_into _) in E. vm_compute in y. subst y. injection E as <-. constructor; [|constructor]. repeat split; leaf.
      * intros k ->. apply CN. cbn. auto.
      * ends.
      * discriminate.
      * intros c E. set (y := blocks_into _) in E. vm_compute in y. subst y. injection E as <-. constructor; [|constructor]. repeat split; leaf.
    + constructor; [|constructor]. split; [apply CN; cbn; auto|]. cbn [fst snd]. split; [cbn; intuition discriminate|]. split; [cbn; intuition discriminate|].
      split; [vm_compute; intuition discriminate|]. intros c E. set (y := blocks_into _) in E. vm_compute in y. subst y. injection E as <-. constructor; [|constructor]. repeat split; leaf.
    + intros k m r c n [= <- _ _] [= <- _]. reflexivity.
    + intros r k m E. destruct r as [|? [|? ?]]; inversion E; subst. ends.
Qed.
Example C85_example cvs mv ex rnd :
  (cvs = [] -> ready_project (project85 cvs) /\ ready_resources (sp_resources (project85 cvs)) /\ project_fits (project85 cvs) ex_date /\ told_apart (project85 cvs) ex_date) /\
  (* a custom view after the screen *)
  (cvs = [{| cv_res_name := lit "row"; cv_layout := [] |}] -> ready_project (project85 cvs) /\ project_fits (project85 cvs) ex_date /\
     forall r p', project_into_raw (project85 cvs) r -> ~ loaded mv ex rnd r p').
Proof.
  assert (F : Forall (fun v => file_name (cv_res_name v) /\ views_fit (cv_layout v)) cvs -> project_fits (project85 cvs) ex_date).
  { intros C. unfold project_fits. repeat (split; [reflexivity|]). split; [repeat (constructor; [reflexivity|]); constructor|]. split; [vm_compute; reflexivity|]. split; [|exact C]. constructor; [apply screen46_fits|constructor]. }
  split.
  - intros ->. split; [|split; [|split; [|split; [|split; [|split; [|split]]]]]].
    + split; [constructor; [apply screen46_ready|constructor]|]. split; [constructor|]. split; repeat constructor; cbn; tauto.
    + apply (C46_example false).
    + apply F. constructor.
    + unfold date_kept, two_digits. cbn. lia.
    + right. reflexivity.
    + intros a l m b E. destruct a as [|? [|? ?]]; discriminate E.
    + right. exists []. eexists _, _. reflexivity.
    + intros a s b t c E. destruct a as [|? [|? ?]], b; discriminate E.
  - intros E. assert (RP : ready_project (project85 cvs)).
    { rewrite E. split; [constructor; [apply screen46_ready|constructor]|]. split; [constructor; [split; cbn; [constructor|tauto]|constructor]|].
      split; [|repeat constructor; cbn; tauto]. repeat constructor; cbn; intuition discriminate. }
    assert (PF : project_fits (project85 cvs) ex_date).
    { apply F. rewrite E. constructor; [|constructor]. split; [split; cbn; intuition discriminate|]. intros x []. }
    split; [exact RP|]. split; [exact PF|]. intros r p' W. eapply (C85_refuted mv ex rnd (project85 cvs) ex_date [] forest1 [] []); eauto; [rewrite E; reflexivity|discriminate].
Qed.
(** A screen without events and more blocks before one with code: all that is needed holds but the last, and the code is lost. *)
Definition screen85 : screen :=
  {| sc_layout_name := lit "first"; sc_java_name := lit "FirstActivity"; sc_layout := []; sc_variables := []; sc_list_variables := []; sc_more_blocks := [];
     sc_components := []; sc_events := []; sc_fab := None; sc_fullscreen := false; sc_toolbar := true; sc_drawer := false; sc_fab_enabled := false;
     sc_orientation := sc_orientation screen46; sc_theme := sc_theme screen46; sc_keyboard := sc_keyboard screen46 |}.
Definition project85_screens (l : list screen) : sw_project :=
  let p := project85 [] in
  {| sp_custom_icon := sp_custom_icon p; sp_metadata := sp_metadata p; sp_colors := sp_colors p; sp_screens := l; sp_custom_views := []; sp_libraries := sp_libraries p;
     sp_resources := sp_resources p; sp_automatic := false |}.
Example C85_code_example mv ex rnd r :
  let p := project85_screens [screen85; screen46] in
  ready_project p /\ ready_resources (sp_resources p) /\ project_fits p ex_date /\
  (project_into_raw p r -> ~ exists p', loaded mv ex rnd r p' /\ comes_back p p') /\
  (* with the screens the other way round, the layout with views is not the last one *)
  (project_into_raw (project85_screens [screen46; screen85]) r -> ~ exists p', loaded mv ex rnd r p').
Proof.
  cbv zeta. assert (R85 : ready_screen screen85).
  { split; [reflexivity|]. split; [constructor|]. split; [constructor|]. split; [|split; cbn; [constructor|tauto]].
    split; [constructor|]. split; [constructor|]. split; [intros a e b E; destruct a; discriminate E|left; intros e []]. }
  assert (F85 : screen_fits screen85).
  { split; [split; cbn; intuition discriminate|]. split; [intros x []|]. split; [discriminate|]. split; [split; [constructor|split; [constructor|intros r0 k x s c E; destruct r0; discriminate E]]|].
    split; [split; [constructor|split; [constructor|intros r0 k x s c E; destruct r0; discriminate E]]|]. split; [constructor|]. split; [constructor|]. split; [discriminate|].
    intros r0 k m E. destruct r0; discriminate E. }
  assert (RP : forall l, Forall ready_screen l -> NoDup (map sc_layout_name l) -> NoDup (map sc_java_name l) -> ready_project (project85_screens l)).
  { intros l A B C. split; [exact A|]. split; [constructor|]. cbn [sp_screens sp_custom_views project85_screens map]. rewrite app_nil_r. auto. }
  assert (PF : forall l, Forall screen_fits l -> project_fits (project85_screens l) ex_date).
  { intros l A. unfold project_fits. repeat (split; [reflexivity|]). split; [repeat (constructor; [reflexivity|]); constructor|]. split; [vm_compute; reflexivity|]. split; [exact A|constructor]. }
  assert (R1 : ready_project (project85_screens [screen85; screen46])).
  { apply RP; [auto using screen46_ready|..]; (constructor; [cbn; intuition discriminate|repeat constructor; cbn; tauto]). }
  assert (RR : ready_resources (sp_resources (project85_screens [screen85; screen46]))) by apply (C46_example false).
  assert (F1 : project_fits (project85_screens [screen85; screen46]) ex_date) by (apply PF; auto using screen46_fits).
  split; [exact R1|]. split; [exact RR|]. split; [exact F1|]. split.
  - intros W L. apply (C85_exact mv ex rnd _ ex_date r R1 RR eq_refl F1 W) in L as (_ & _ & _ & _ & L).
    assert (I : idle screen46) by (apply (L [] screen85 [] screen46 []); [reflexivity|intros [N|N]; now apply N]).
    destruct I as [I _]. destruct (sc_events screen46) as [|e l] eqn:E; [discriminate E|]. destruct (I e) as [_ C]; [now left|]. cbn in E. injection E as <- _. discriminate C.
  - intros W (p' & L). refine (C85_refuted mv ex rnd (project85_screens [screen46; screen85]) ex_date [] forest1 [] [] _ _ eq_refl ltac:(discriminate) r W p' L).
    + apply RP; [auto using screen46_ready|..]; (constructor; [cbn; intuition discriminate|repeat constructor; cbn; tauto]).
    + apply PF. auto using screen46_fits.
Qed.

(** * C86: what is loaded from a saved project, in every case *)
Definition last_only (p : sw_project) : Prop := forall a l m b, all_layouts p = a ++ l :: m :: b -> l = [].
(** whatever the resources: the date and the view file *)
Lemma outcome_files mv ex p q dt r : ready_project p -> project_fits p dt -> project_into p = Ok q -> into_raw q r ->
  (date_crash (date_text dt) -> parse_from mv ex r = Panic) /\
  (date_wrong (date_text dt) -> parse_from mv ex r = Err (PeProject tt)) /\
  (forall t, date_value (date_text dt) t -> ~ last_only p -> exists e, parse_from mv ex r = Err (PeView e)).
Proof.
  intros RP PF H W. pose proof (fits_typed p q dt RP PF H) as T. destruct (plain_parts p q dt r RP PF H W) as (PP & D2 & LB & RB & D5 & D6). split; [|split].
  - intros TD. apply date_de_panic in TD. unfold parse_from. rewrite PP, TD. reflexivity.
  - intros TD. apply date_de_err in TD. unfold parse_from. rewrite PP, TD. reflexivity.
  - intros t TD NL. apply date_de_ok in TD. rewrite TD in PP. cbn [bind] in PP. destruct T as (_ & _ & _ & _ & V & _).
    assert (FE : exists f, file_parse (rp_file r) = Ok f).
    { rewrite D2. destruct (f_activities (pp_file q)) as [|x l] eqn:E1; [destruct (f_custom_views (pp_file q)) as [|y m] eqn:E2|].
      - exists (pp_file q). apply C16_roundtrip_partial. now right.
      - eexists. apply C16_refuted; congruence.
      - exists (pp_file q). apply C16_roundtrip_partial. left. congruence. }
    destruct FE as (f & FE). pose proof RP as (_ & _ & N1 & N2). destruct (into_exact p q H N1 N2) as (ls & _ & _ & EV & _).
    destruct (view_parse (rp_view r)) as [v|e|] eqn:E.
    + exfalso. apply NL. intros a l m b E0. destruct l as [|x l]; [reflexivity|]. exfalso. rewrite layouts_named in E0. apply map_eq_app in E0 as (m1 & m2 & E1 & <- & E2).
      destruct m2 as [|[n1 l1] [|[n2 l2] m2]]; try discriminate E2. injection E2 as -> -> <-. rewrite E1, map_app in EV. cbn [map fst snd] in EV.
      destruct (C20_two_layouts_refuted _ _ _ _ _ _ _ V EV) as (e & X); [now rewrite flatten_nil|]. rewrite D5 in E. congruence.
    + exists e. unfold parse_from. rewrite PP, FE, LB, RB, E. reflexivity.
    + exfalso. rewrite D5 in E. exact (view_parse_nopanic _ E).
Qed.
Theorem C86_outcome mv ex rnd p dt : ready_project p -> ready_resources (sp_resources p) -> sp_automatic p = false -> project_fits p dt ->
  (exists r, project_into_raw p r) /\
  forall r, project_into_raw p r ->
    (date_crash (date_text dt) -> parse_from mv ex r = Panic) /\
    (date_wrong (date_text dt) -> parse_from mv ex r = Err (PeProject tt)) /\
    forall t, date_value (date_text dt) t ->
      (~ last_only p -> exists e, parse_from mv ex r = Err (PeView e)) /\
      (last_only p -> exists p', loaded mv ex rnd r p' /\ comes_back (remains (created_at t p)) p').
Proof.
  intros RP RR A PF. destruct (C46_partial rnd p RP RR) as (q & H & _). pose proof (fits_typed p q dt RP PF H) as T.
  split; [destruct (C50_written q dt T) as (r & W); exists r, q; auto|].
  intros r (q' & H' & W). rewrite H in H'. injection H' as <-. destruct (outcome_files mv ex p q dt r RP PF H W) as (O1 & O2 & O3). split; [exact O1|]. split; [exact O2|].
  intros t TD. split; [exact (O3 t TD)|]. apply date_de_ok in TD.
  intros SL. destruct (remains_read mv ex rnd p q dt r t RP RR A PF H W TD SL) as (v & p' & K & L & S & I & F). exists p'. split; [exists v; auto|]. split; [exact S|]. split; [exact I|exact F].
Qed.
Print Assumptions C86_outcome.
(** With automatic resources the icon is the only file that is saved. If it lies in no folder of the project's files, loading
    fails with it; otherwise loading fails at the first resource without a file or what remains is known from where the
    icon lies ([icon_outcome]). *)
Theorem C86_automatic mv ex rnd p dt : ready_project p -> ready_resources (sp_resources p) -> sp_automatic p = true -> project_fits p dt ->
  (exists r, project_into_raw p r) /\
  forall r, project_into_raw p r ->
    (date_crash (date_text dt) -> parse_from mv ex r = Panic) /\
    (date_wrong (date_text dt) -> parse_from mv ex r = Err (PeProject tt)) /\
    forall t, date_value (date_text dt) t ->
      (~ last_only p -> exists e, parse_from mv ex r = Err (PeView e)) /\
      (last_only p ->
        ((exists w, sp_custom_icon p = Some w /\ forall ty n, ~ wrapper_class ex w ty n) -> exists e, parse_from mv ex r = Err (PeResourceFiles e)) /\
        (forall i rs, icon_outcome ex (sp_custom_icon p) (sp_resources p) i rs <->
           exists p', loaded mv ex rnd r p' /\ same_project (remains (created_at t p)) p' /\ sp_custom_icon p' = i /\ sp_resources p' = rs) /\
        ((forall w, sp_custom_icon p = Some w -> exists ty n, wrapper_class ex w ty n) -> (forall i rs, ~ icon_outcome ex (sp_custom_icon p) (sp_resources p) i rs) ->
           exists v id n ty, parse_from mv ex r = Ok v /\ project_try_from rnd v = Err (XMissingResourceFile id n ty))).
Proof.
  intros RP RR A PF. destruct (C46_partial rnd p RP RR) as (q & H & _). pose proof (fits_typed p q dt RP PF H) as T.
  split; [destruct (C50_written q dt T) as (r & W); exists r, q; auto|].
  intros r (q' & H' & W). rewrite H in H'. injection H' as <-. destruct (outcome_files mv ex p q dt r RP PF H W) as (O1 & O2 & O3). split; [exact O1|]. split; [exact O2|].
  intros t TD. split; [exact (O3 t TD)|]. apply date_de_ok in TD. intros SL. destruct (icon_read mv ex rnd p q dt r t RP A PF H W TD SL) as [X Y]. split; [|split].
  - intros (w & E & N). exact (X w E N).
  - intros i rs. split.
    + intros O. destruct Y as (v & P & K). { intros w E. destruct O; try discriminate E; injection E as <-; eauto. }
      destruct (project_try_from rnd v) as [p'|e|] eqn:L; [|destruct K as [_ K]; elim (K _ _ O)|contradiction].
      destruct K as [S O']. destruct (icon_outcome_fun _ _ _ _ _ _ _ O O') as [-> ->]. exists p'. split; [exists v; auto|auto].
    + intros (p' & (v & P & L) & S & <- & <-). destruct Y as (v' & P' & K).
      { intros w E. destruct (sp_custom_icon p) as [w0|] eqn:EI; [|discriminate E]. injection E as <-.
        apply parse_from_ok in P as (_ & _ & _ & _ & _ & _ & P). destruct W as [_ W].
        apply into_inv in H as (? & ? & ? & ? & _ & _ & _ & _ & _ & _ & _ & _ & _ & RF). rewrite RF, A, EI in W. destruct W as (ws & E & im & so & fo & _ & _ & _ & EW).
        rewrite E in P. destruct P as (g & P & _). pose proof (proj1 (rf_collect_defined ex ws res_files_default) (ex_intro _ g P)) as D. rewrite EW in D. exact (Forall_inv D). }
      rewrite P in P'. injection P' as <-. rewrite L in K. apply K.
  - intros F N. destruct (Y F) as (v & P & K). destruct (project_try_from rnd v) as [p'|e|] eqn:L; [destruct K as [_ K]; elim (N _ _ K)| |contradiction].
    destruct K as [(id & n & ty & ->) _]. exists v, id, n, ty. auto.
Qed.
Print Assumptions C86_automatic.
(** The date is as it was exactly when it is one that is kept; within the years 1000 to 9999 every other date crashes.
    What remains can be told apart: it loses nothing more if it is saved and loaded once more. *)
Theorem C86_dates t dt : t < 2 ^ 64 -> datetime_of_timestamp (i64_of_u64 t) = Some dt ->
  (date_value (date_text dt) t <-> date_kept dt) /\
  ((1000 <= dt_year dt <= 9999)%Z -> ~ two_digits dt -> date_crash (date_text dt)).
Proof.
  intros R H. destruct (timestamp_rt _ _ H) as [T V]. split.
  - rewrite <- date_de_ok. pose proof (date_back dt V) as D. rewrite T, (u64_i64 _ R) in D. rewrite D by now apply i64_bounds. rewrite wide_two. reflexivity.
  - intros Y N. apply date_de_panic. apply date_de_narrow; [assumption..|]. rewrite <- wide_two in N. now apply not_true_is_false.
Qed.
Print Assumptions C86_dates.
Theorem C86_settled p dt : date_kept dt -> last_only p -> told_apart (remains p) dt /\ remains (remains p) = remains p.
Proof.
  intros TD SL. pose proof (remains_layouts p) as AL.
  assert (SE : sp_screens (remains p) = [] <-> sp_screens p = []).
  { rewrite remains_screens. destruct (sp_screens p) as [|s l]; [easy|]. split; [|discriminate]. intros E. apply map_eq_nil in E. apply (f_equal (@length screen)) in E. rewrite code_kept_length in E. discriminate. }
  split; [|apply remains_twice].
  split; [exact TD|]. split; [|split; [|split]].
  - destruct (sp_screens p) as [|s l] eqn:E; [right; unfold remains; cbn [sp_custom_views]; now rewrite E|left; intros X; apply SE in X; discriminate].
  - rewrite AL. destruct (sp_screens p); [intros a l m b X; destruct a; discriminate|exact SL].
  - destruct (no_views p) eqn:NV.
    + left. rewrite remains_screens. intros s I. apply in_map_iff in I as (t & <- & _). unfold button_kept. now rewrite NV.
    + destruct (sp_screens p) as [|s0 l0] eqn:E0; [left; rewrite (proj2 SE eq_refl); intros s []|right]. rewrite AL.
      destruct (all_layouts p) as [|l pre _] eqn:E using rev_ind; [exfalso; unfold no_views in NV; rewrite E in NV; discriminate|].
      destruct l as [|x l]; [|eauto]. exfalso. apply not_true_iff_false in NV. apply NV. apply no_views_all. rewrite E. intros l I. apply in_app_or in I as [I|[<-|[]]]; [|reflexivity].
      apply in_split in I as (u & w & ->). destruct w as [|y w]; eapply SL; rewrite E, <- app_assoc; reflexivity.
  - rewrite remains_screens. apply code_kept_idle.
Qed.
Print Assumptions C86_settled.
(** the first screen of the two has no code, so the second one loses its own; its layout and its button stay *)
Example C86_example mv ex rnd r :
  let p := project85_screens [screen85; screen46] in
  project_into_raw p r ->
  (exists p', loaded mv ex rnd r p' /\ comes_back (remains p) p') /\
  map (fun s => (sc_events s, sc_more_blocks s, sc_layout s, sc_fab s)) (sp_screens (remains p)) =
    [([], [], [], None);
     ([ev "onClick" (EtView (lit "text1")) []], [(lit "say", {| am_name := lit "say"; am_spec := [SText (lit "say")]; am_code := [] |})], forest1, Some (leafv "_fab" 16))] /\
  sp_screens (remains (project85_screens [without_code screen85])) = [screen85].
Proof.
  cbv zeta. intros W. split; [|split; reflexivity]. destruct (C85_code_example mv ex rnd r) as (RP & RR & PF & _).
  destruct (C86_outcome mv ex rnd _ ex_date RP RR eq_refl PF) as (_ & O). destruct (O r W) as (_ & _ & K). apply (K 1636974733); [apply (C86_dates _ ex_date); [reflexivity|vm_compute; reflexivity|unfold date_kept, two_digits; cbn; lia]|].
  intros a l m b E. destruct a as [|? [|? [|? ?]]]; try discriminate E. now injection E as <-.
Qed.
(** A project whose only image is said to be filled in and whose icon lies in a folder [images], under the name of that image:
    the icon is gone and its file is now the image. With the icon in a folder [icons] the project cannot be loaded. *)
Definition automatic86 (icon : str) : sw_project :=
  let p := project85 [] in
  {| sp_custom_icon := Some (WPath icon); sp_metadata := sp_metadata p; sp_colors := sp_colors p; sp_screens := sp_screens p; sp_custom_views := []; sp_libraries := sp_libraries p;
     sp_resources := only_resource RImage (lit "cat") (WPath (lit "/mine/cat.png")); sp_automatic := true |}.
Example C86_automatic_example mv rnd r :
  let here := lit "/s/images/601/cat.png" in
  let there := lit "/s/icons/601/cat.png" in
  let ex := fun _ => true in
  (project_into_raw (automatic86 here) r -> exists p', loaded mv ex rnd r p' /\ sp_custom_icon p' = None /\ sp_resources p' = only_resource RImage (lit "cat") (WPath here)) /\
  (project_into_raw (automatic86 there) r -> exists v id n ty, parse_from mv ex r = Ok v /\ project_try_from rnd v = Err (XMissingResourceFile id n ty)).
Proof.
  cbv zeta. destruct (C85_example [] mv (fun _ => true) rnd) as [K _]. destruct (K eq_refl) as (RP & _ & PF & TA).
  assert (RR : forall i, ready_resources (sp_resources (automatic86 i))).
  { intros i t m [E|[E|[E|[]]]]; injection E as <- <-; (split; [repeat constructor; cbn; tauto|]); repeat constructor. exists (lit "cat.png"). vm_compute. reflexivity. }
  assert (PF' : forall i, project_fits (automatic86 i) ex_date) by (intros i; exact PF).
  assert (DV : date_value (date_text ex_date) 1636974733) by (apply (C86_dates _ ex_date); [reflexivity|vm_compute; reflexivity|apply TA]).
  assert (LO : forall i, last_only (automatic86 i)) by (intros i; destruct TA as (_ & _ & L & _); exact L).
  assert (WC : forall f t, In (f, t) [(lit "images", RImage); (lit "icons", RCustomIcon)] -> wrapper_class (fun _ => true) (WPath (lit "/s/" ++ f ++ lit "/601/cat.png")) t (lit "cat.png")).
  { intros f t I. apply (wc_path _ _ [RootDir; Normal (lit "s")] f (Normal (lit "601")) (lit "cat.png") t); [reflexivity| |discriminate|].
    - destruct I as [E|[E|[]]]; injection E as <- <-; vm_compute; reflexivity.
    - cbn [In] in *. tauto. }
  split; intros W.
  - destruct (C86_automatic mv (fun _ => true) rnd (automatic86 (lit "/s/images/601/cat.png")) ex_date RP (RR _) eq_refl (PF' _)) as (_ & O). destruct (O r W) as (_ & _ & O1). destruct (O1 _ DV) as (_ & O2). destruct (O2 (LO _)) as (_ & O3 & _).
    destruct (proj1 (O3 None (only_resource RImage (lit "cat") (WPath (lit "/s/images/601/cat.png"))))) as (p' & L & _ & I & R); [|eauto].
    apply (io_taken _ _ RImage (lit "cat.png")); [discriminate| |vm_compute; reflexivity]. apply (WC (lit "images")). cbn. auto.
  - destruct (C86_automatic mv (fun _ => true) rnd (automatic86 (lit "/s/icons/601/cat.png")) ex_date RP (RR _) eq_refl (PF' _)) as (_ & O). destruct (O r W) as (_ & _ & O1). destruct (O1 _ DV) as (_ & O2). destruct (O2 (LO _)) as (_ & _ & O3).
    assert (C : wrapper_class (fun _ => true) (WPath (lit "/s/icons/601/cat.png")) RCustomIcon (lit "cat.png")) by (apply (WC (lit "icons")); cbn; auto).
    apply O3; [intros w [= <-]; eauto|]. intros i rs X. inversion X as [| | |? t n id w' N C' F E1 E2]; [discriminate..|]. apply N. eapply (wrapper_class_fun _ _ _ _ _ _ C' C).
Qed.
