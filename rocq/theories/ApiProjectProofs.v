(** Proofs about the conversions of /repo/src/api/mod.rs (A_Project.v). *)
From Coq Require Import Lia.
From Verif Require Import Base Str M_Raw M_Project M_File M_Library M_Resource M_View M_Logic M_Parsed A_Block A_View A_Screen A_Project
  SpecBlock SpecView SpecScreen SpecProject BlockProofs BlockTripProofs ViewTreeProofs ViewFlatProofs ScreenProofs.

(** ** Maps that are consumed *)
Definition rm_all {V} (ks : list str) (m : smap V) : smap V := fold_left (fun m k => sremove k m) ks m.
Lemma sget_rm_all {V} ks k (m : smap V) : sget k (rm_all ks m) = if mem k ks then None else sget k m.
Proof.
  revert m; induction ks as [|x ks IH]; intros m; cbn; [reflexivity|]. change (sget k (rm_all ks (sremove x m)) = if str_eqb k x || mem k ks then None else sget k m).
  rewrite IH. destruct (str_eqb_spec k x) as [->|N]; cbn [orb]; destruct (mem _ ks); auto; [apply sget_remove_same|now apply sget_remove_other].
Qed.

(** ** Screens of a parsed project *)
(** what one activity entry is read from, after the entries [pre] *)
Definition reads_screen (lays : smap layout) (lgs : logic) (fabs : smap android_view) (pre : list file_item) (fe : file_item) (s : screen) : Prop :=
  let name := fi_filename fe in
  let names := map fi_filename pre in
  let lg := match sget (view_name_to_logic name) (rm_all (map view_name_to_logic names) lgs) with Some x => x | None => screen_new_empty name end in
  screen_from_parsed name (sl_name lg) fe (or_empty (sget name (rm_all names lays))) lg (option_map view_from (sget name (rm_all names fabs))) = Ok s.
Lemma take_screens_iff l : forall lays lgs fabs ss lays', take_screens l lays lgs fabs = Ok (ss, lays') <->
  length ss = length l /\ lays' = rm_all (map fi_filename l) lays /\
  forall a fe b, l = a ++ fe :: b -> exists s, nth_error ss (length a) = Some s /\ reads_screen lays lgs fabs a fe s.
Proof.
  induction l as [|fe l IH]; intros lays lgs fabs ss lays'; cbn [take_screens].
  - split.
    + intros [= <- <-]. repeat split. intros a fe b E. destruct a; discriminate.
    + intros (L & -> & _). destruct ss; [reflexivity|discriminate].
  - rewrite bind_ok. split.
    + intros (s & S & K). apply map_err_ok in S. apply bind_ok in K as ([ss1 lays1] & K & E). injection E as <- <-.
      apply IH in K as (L & -> & K). split; [cbn; lia|]. split; [reflexivity|].
      intros [|x a] y b E; cbn in E; injection E as <- ->.
      * exists s. split; [reflexivity|]. exact S.
      * destruct (K a y b eq_refl) as (t & N & R). exists t. split; [exact N|]. exact R.
    + intros (L & -> & K). destruct ss as [|s ss]; [discriminate|]. exists s.
      destruct (K [] fe l eq_refl) as (t & [= <-] & R). split; [apply map_err_ok; exact R|].
      apply bind_ok. exists (ss, rm_all (map fi_filename l) (sremove (fi_filename fe) lays)). split; [|reflexivity].
      apply IH. split; [cbn in L; lia|]. split; [reflexivity|]. intros a y b ->. destruct (K (fe :: a) y b eq_refl) as (t & N & R'). exists t. auto.
Qed.
(** entries with distinct names do not disturb each other *)
Lemma take_screens_nodup l lays lgs fabs ss : NoDup (map fi_filename l) -> NoDup (map view_name_to_logic (map fi_filename l)) ->
  Forall2 (fun fe s => reads_screen lays lgs fabs [] fe s) l ss ->
  take_screens l lays lgs fabs = Ok (ss, rm_all (map fi_filename l) lays).
Proof.
  intros N1 N2 F. apply take_screens_iff. split; [symmetry; eapply Forall2_len; eauto|]. split; [reflexivity|].
  intros a fe b ->. apply Forall2_app_inv_l in F as (s1 & s2 & F1 & F2 & ->). inversion F2 as [|? s ? s3 R _]; subst. exists s.
  split; [rewrite nth_error_app2 by (apply Forall2_len in F1; lia); apply Forall2_len in F1; now rewrite F1, Nat.sub_diag|].
  unfold reads_screen in *. cbn [map] in R. rewrite !sget_rm_all in *. rewrite !map_app in N1, N2. cbn [map] in N1, N2. rewrite ?map_app in N2. cbn [map] in N2.
  apply NoDup_remove_2 in N1, N2. rewrite in_app_iff in N1, N2.
  rewrite !(proj2 (mem_not _ _)) by tauto. exact R.
Qed.

Definition reads_custom_view (lays : smap layout) (pre : list file_item) (fe : file_item) (c : custom_view) : Prop :=
  cv_res_name c = fi_filename fe /\ ~ In (fi_filename fe) (map fi_filename pre) /\
  exists lay, sget (fi_filename fe) lays = Some lay /\ parse_raw_layout lay = Ok (cv_layout c).
Lemma take_custom_views_iff l : forall lays cs, take_custom_views l lays = Ok cs <->
  length cs = length l /\
  forall a fe b, l = a ++ fe :: b -> exists c, nth_error cs (length a) = Some c /\ reads_custom_view lays a fe c.
Proof.
  induction l as [|fe l IH]; intros lays cs; cbn [take_custom_views].
  - split.
    + intros [= <-]. split; [reflexivity|]. intros a fe b E. destruct a; discriminate.
    + intros (L & _). destruct cs; [reflexivity|discriminate].
  - rewrite bind_ok. split.
    + intros (lay & G & K). apply bind_ok in K as (views & V & K). apply map_err_ok in V. apply bind_ok in K as (cs1 & K & E). injection E as <-.
      destruct (sget (fi_filename fe) lays) as [x|] eqn:GE; [|discriminate G]. injection G as ->.
      apply IH in K as (L & K). split; [cbn; lia|].
      intros [|x a] y b E; cbn in E; injection E as <- ->.
      * eexists. split; [reflexivity|]. split; [reflexivity|]. split; [intros []|]. eauto.
      * destruct (K a y b eq_refl) as (c & N & R1 & R2 & lay' & R3 & R4). exists c. split; [exact N|]. split; [exact R1|].
        assert (D : fi_filename y <> fi_filename fe) by (intros D; rewrite D, sget_remove_same in R3; discriminate).
        rewrite sget_remove_other in R3 by exact D. split; [cbn; intros [H|H]; auto|]. eauto.
    + intros (L & K). destruct cs as [|c cs]; [discriminate|]. destruct (K [] fe l eq_refl) as (c' & [= <-] & R1 & _ & lay & R3 & R4).
      exists lay. rewrite R3. split; [reflexivity|]. apply bind_ok. exists (cv_layout c). split; [now apply map_err_ok|]. apply bind_ok. exists cs.
      split; [|destruct c; cbn in *; congruence].
      apply IH. split; [cbn in L; lia|]. intros a y b ->. destruct (K (fe :: a) y b eq_refl) as (c1 & N & Q1 & Q2 & lay1 & Q3 & Q4).
      exists c1. split; [exact N|]. split; [exact Q1|]. cbn in Q2. split; [tauto|]. exists lay1. rewrite sget_remove_other by (intros D; apply Q2; auto). auto.
Qed.

(** ** Screens written *)
Lemma fab_of_ok n ch : fab_of (VNode n ch) = Ok (set_av_parent_type (-1)%Z (set_av_parent None (snd (flatten_node n ROOT 0)))).
Proof. unfold fab_of, flatten_views. cbn [map flatten_view]. destruct (flatten_node n ROOT 0) as [ty x]. reflexivity. Qed.
Definition fab_raw (s : screen) : option android_view :=
  option_map (fun v => set_av_parent_type (-1)%Z (set_av_parent None (snd (flatten_node (vnode v) ROOT 0)))) (sc_fab s).
Lemma put_screens_eq l : forall lgs lays fabs, put_screens l lgs lays fabs =
  match l with
  | [] => Ok (lgs, lays, fabs)
  | s :: r =>
    let* lg := screen_logic_of s in
    put_screens r (sinsert (sc_java_name s) lg lgs) (sinsert (sc_layout_name s) (flatten_views (sc_layout s) None None) lays)
      (match fab_raw s with Some x => sinsert (sc_layout_name s) x fabs | None => fabs end)
  end.
Proof.
  intros lgs lays fabs. destruct l as [|s r]; [reflexivity|]. cbn [put_screens]. unfold fab_raw.
  destruct (sc_fab s) as [[n ch]|]; [rewrite fab_of_ok|]; reflexivity.
Qed.
Lemma put_screens_get l : forall lgs lays fabs lgs' lays' fabs', put_screens l lgs lays fabs = Ok (lgs', lays', fabs') ->
  Forall (fun s => exists lg, screen_logic_of s = Ok lg) l /\
  (forall k, (~ In k (map sc_java_name l) -> sget k lgs' = sget k lgs) /\
             (~ In k (map sc_layout_name l) -> sget k lays' = sget k lays /\ sget k fabs' = sget k fabs)) /\
  (NoDup (map sc_java_name l) -> forall s, In s l -> exists lg, screen_logic_of s = Ok lg /\ sget (sc_java_name s) lgs' = Some lg) /\
  (NoDup (map sc_layout_name l) -> (forall s, In s l -> sget (sc_layout_name s) fabs = None) ->
   forall s, In s l -> sget (sc_layout_name s) lays' = Some (flatten_views (sc_layout s) None None) /\ sget (sc_layout_name s) fabs' = fab_raw s).
Proof.
  induction l as [|s l IH]; intros lgs lays fabs lgs' lays' fabs' H; rewrite put_screens_eq in H.
  - injection H as <- <- <-. split; [constructor|]. split; [split; auto|]. split; [intros _ s []|intros _ _ s []].
  - apply bind_ok in H as (lg & L & H). apply IH in H as (A & O & G1 & G2). split; [constructor; eauto|]. split; [|split].
    + intros k. split; intros N; cbn in N.
      * rewrite (proj1 (O k)) by tauto. apply sget_insert_other. intros ->. tauto.
      * destruct (proj2 (O k)) as [-> ->]; [tauto|]. split; [apply sget_insert_other; intros ->; tauto|].
        destruct (fab_raw s); [|reflexivity]. apply sget_insert_other. intros ->. tauto.
    + intros N x I. cbn in N. inversion N as [|? ? N1 N2]; subst. destruct I as [<-|I]; [|now apply G1].
      exists lg. split; [exact L|]. rewrite (proj1 (O _)) by exact N1. apply sget_insert_same.
    + intros N F x I. cbn in N. inversion N as [|? ? N1 N2]; subst. destruct I as [<-|I].
      * destruct (proj2 (O _) N1) as [-> ->]. split; [apply sget_insert_same|]. pose proof (F s (or_introl eq_refl)) as Fs. destruct (fab_raw s); [apply sget_insert_same|exact Fs].
      * apply G2; auto. intros y J. assert (D : sc_layout_name y <> sc_layout_name s) by (intros D; apply N1; rewrite <- D; now apply in_map).
        destruct (fab_raw s); [rewrite sget_insert_other by exact D|]; apply F; now right.
Qed.
Lemma put_screens_ok l : Forall (fun s => exists lg, screen_logic_of s = Ok lg) l -> forall lgs lays fabs, exists r, put_screens l lgs lays fabs = Ok r.
Proof.
  induction 1 as [|s l (lg & L) _ IH]; intros lgs lays fabs; rewrite put_screens_eq; [eauto|]. rewrite L. cbn [bind]. apply IH.
Qed.
Lemma put_custom_views_get l : forall lays,
  (forall k, ~ In k (map cv_res_name l) -> sget k (put_custom_views l lays) = sget k lays) /\
  (NoDup (map cv_res_name l) -> forall c, In c l -> sget (cv_res_name c) (put_custom_views l lays) = Some (flatten_views (cv_layout c) None None)).
Proof.
  induction l as [|c l IH]; intros lays; [split; [reflexivity|intros _ c []]|].
  change (put_custom_views (c :: l) lays) with (put_custom_views l (sinsert (cv_res_name c) (flatten_views (cv_layout c) None None) lays)).
  destruct (IH (sinsert (cv_res_name c) (flatten_views (cv_layout c) None None) lays)) as [O G]. split.
  - intros k N. cbn in N. rewrite O by tauto. apply sget_insert_other. intros ->. tauto.
  - intros N x I. inversion N as [|? ? N1 N2]; subst. destruct I as [<-|I]; [|now apply G]. rewrite O by exact N1. apply sget_insert_same.
Qed.

(** ** Resources *)
Lemma put_resources_iff auto l : forall files is files', put_resources auto l files = Ok (is, files') <->
  exists ns, Forall2 full_name (map snd l) ns /\
    is = map (fun x => {| ri_full_name := snd x; ri_name := fst x; ri_type := 1 |}) (combine (map fst l) ns) /\
    files' = (if auto then files else fold_left (fun m x => sinsert (fst x) (snd x) m) (combine ns (map snd l)) files).
Proof.
  induction l as [|[id w] l IH]; intros files is files'; cbn [put_resources].
  - split.
    + intros [= <- <-]. exists []. repeat split; [constructor|]. now destruct auto.
    + intros (ns & F & -> & ->). inversion F; subst. now destruct auto.
  - rewrite bind_ok. split.
    + intros (n & F & K). apply bind_ok in K as ([is1 f1] & K & E). injection E as <- <-. apply IH in K as (ns & Fs & -> & ->).
      exists (n :: ns). cbn [map fst snd]. split; [constructor; [exact F|exact Fs]|]. split; [reflexivity|]. now destruct auto.
    + intros (ns & F & -> & ->). cbn [map fst snd] in F. inversion F as [|? n ? ns' F1 F2]; subst. exists n. split; [exact F1|]. apply bind_ok.
      eexists. split; [apply IH; exists ns'; repeat split; eauto|]. cbn [map combine fst snd fold_left]. now destruct auto.
Qed.
(** no files: every item becomes a numbered file *)
Lemma take_resources_none t rnd l : forall i, exists ws, take_resources t rnd i l None = Ok ws /\
  Forall2 (fun it kv => fst kv = ri_name it /\ exists j, snd kv = WU32Id (rnd j) (ri_full_name it) t) l ws.
Proof.
  induction l as [|it l IH]; intros i; [exists []; split; constructor|]. cbn [take_resources]. destruct (IH (S i)) as (ws & H & F). cbn [bind]. rewrite H. cbn [bind].
  eexists. split; [reflexivity|]. constructor; [split; [reflexivity|eexists; reflexivity]|exact F].
Qed.
Lemma take_resources_some t rnd l : forall i m ws, take_resources t rnd i l (Some m) = Ok ws <->
  Forall2 (fun it kv => fst kv = ri_name it /\ sget (ri_full_name it) m = Some (snd kv)) l ws /\ NoDup (map ri_full_name l).
Proof.
  induction l as [|it l IH]; intros i m ws; cbn [take_resources].
  - split; [intros [= <-]; split; constructor|]. intros [F _]. inversion F. reflexivity.
  - rewrite bind_ok. split.
    + intros (w & G & K). apply bind_ok in K as (ws1 & K & E). injection E as <-. apply IH in K as [F N].
      destruct (sget (ri_full_name it) m) as [x|] eqn:GE; [|discriminate]. injection G as ->.
      assert (X : Forall (fun y => ri_full_name y <> ri_full_name it) l).
      { clear -F. induction F as [|y kv l ws [_ F] _ IH]; constructor; auto. intros D. rewrite D, sget_remove_same in F. discriminate. }
      split.
      * constructor; [now split|]. clear -F X. induction F as [|y kv l ws [F1 F2] _ IH]; constructor; inversion X; subst; auto. split; [exact F1|]. now rewrite sget_remove_other in F2.
      * cbn. constructor; [|exact N]. rewrite in_map_iff. intros (y & D & I). rewrite Forall_forall in X. now apply (X y).
    + intros [F N]. inversion F as [|? [id w] ? ws1 [F1 F2] F3]; subst. cbn in F1, F2. inversion N as [|? ? N1 N2]; subst. exists w. rewrite F2. split; [reflexivity|].
      apply bind_ok. exists ws1. split; [|reflexivity]. apply IH. split; [|exact N2].
      assert (X : Forall (fun y => ri_full_name y <> ri_full_name it) l).
      { apply Forall_forall. intros y I D. apply N1. rewrite <- D. now apply in_map. }
      clear -F3 X. induction F3 as [|y kv l ws [F1 F2] _ IH]; constructor; inversion X; subst; auto. split; [exact F1|]. now rewrite sget_remove_other.
Qed.

(** ** Whole projects *)
Lemma from_parsed_fields ln jn fe ve le fab s : screen_from_parsed ln jn fe ve le fab = Ok s ->
  sc_layout_name s = ln /\ sc_java_name s = jn /\ parse_raw_layout ve = Ok (sc_layout s) /\ sc_fab s = fab /\
  sc_fullscreen s = ao_fullscreen (fi_options fe) /\ sc_toolbar s = ao_toolbar (fi_options fe) /\ sc_drawer s = ao_drawer (fi_options fe) /\
  sc_fab_enabled s = ao_fab (fi_options fe) /\ sc_orientation s = fi_orientation fe /\ sc_theme s = fi_theme fe /\ sc_keyboard s = fi_keyboard fe /\
  sc_variables s = or_empty (sl_variables le) /\ sc_list_variables s = or_empty (sl_list_variables le).
Proof.
  unfold screen_from_parsed. intros H. apply bind_ok in H as (views & V & H). apply map_err_ok in V. apply bind_ok in H as ([ms bc] & M & H).
  apply bind_ok in H as (cs & _ & H). apply bind_ok in H as (es & _ & H). injection H as <-. cbn. repeat split. exact V.
Qed.
Lemma try_from_inv rnd v p : project_try_from rnd v = Ok p ->
  exists lays im so fo,
    take_screens (f_activities (pp_file v)) (vw_layouts (pp_view v)) (pp_logic v) (vw_fabs (pp_view v)) = Ok (sp_screens p, lays) /\
    take_custom_views (f_custom_views (pp_file v)) lays = Ok (sp_custom_views p) /\
    library_conv (lit "firebase") (l_firebase (pp_library v))
      {| fb_project_id := li_data (l_firebase (pp_library v)); fb_app_id := li_reserved1 (l_firebase (pp_library v));
         fb_api_key := li_reserved2 (l_firebase (pp_library v)); fb_storage_bucket := li_reserved3 (l_firebase (pp_library v)) |} = Ok (lb_firebase (sp_libraries p)) /\
    library_conv (lit "admob") (l_admob (pp_library v))
      {| am_ad_units := li_ad_units (l_admob (pp_library v)); am_test_devices := li_test_devices (l_admob (pp_library v)) |} = Ok (lb_ad_mob (sp_libraries p)) /\
    library_conv (lit "google map") (l_google_map (pp_library v)) {| gm_api_key := li_data (l_google_map (pp_library v)) |} = Ok (lb_google_map (sp_libraries p)) /\
    lb_app_compat (sp_libraries p) = str_eqb (li_use_yn (l_compat (pp_library v))) (lit "Y") /\
    take_resources RImage (rnd RImage) 0 (rs_images (pp_resource v)) (option_map rf_images (pp_resource_files v)) = Ok im /\
    take_resources RSound (rnd RSound) 0 (rs_sounds (pp_resource v)) (option_map rf_sounds (pp_resource_files v)) = Ok so /\
    take_resources RFont (rnd RFont) 0 (rs_fonts (pp_resource v)) (option_map rf_fonts (pp_resource_files v)) = Ok fo /\
    sp_resources p = {| re_images := scollect im; re_sounds := scollect so; re_fonts := scollect fo |} /\
    sp_custom_icon p = match pp_resource_files v with Some f => rf_custom_icon f | None => None end /\
    sp_automatic p = match pp_resource_files v with Some _ => false | None => true end.
Proof.
  unfold project_try_from. cbv zeta. intros H. apply bind_ok in H as ([ss lays] & S & H). apply bind_ok in H as (cvs & C & H).
  apply bind_ok in H as (fb & F & H). apply bind_ok in H as (am & A & H). apply bind_ok in H as (gm & G & H).
  apply bind_ok in H as (im & I & H). apply bind_ok in H as (so & O & H). apply bind_ok in H as (fo & Q & H). injection H as <-. cbn.
  exists lays, im, so, fo. repeat split; auto.
Qed.
(** the other way round: the parts give the whole *)
Lemma try_from_intro rnd v ss lays cvs fb am gm im so fo :
  take_screens (f_activities (pp_file v)) (vw_layouts (pp_view v)) (pp_logic v) (vw_fabs (pp_view v)) = Ok (ss, lays) ->
  take_custom_views (f_custom_views (pp_file v)) lays = Ok cvs ->
  library_conv (lit "firebase") (l_firebase (pp_library v))
      {| fb_project_id := li_data (l_firebase (pp_library v)); fb_app_id := li_reserved1 (l_firebase (pp_library v));
         fb_api_key := li_reserved2 (l_firebase (pp_library v)); fb_storage_bucket := li_reserved3 (l_firebase (pp_library v)) |} = Ok fb ->
  library_conv (lit "admob") (l_admob (pp_library v))
      {| am_ad_units := li_ad_units (l_admob (pp_library v)); am_test_devices := li_test_devices (l_admob (pp_library v)) |} = Ok am ->
  library_conv (lit "google map") (l_google_map (pp_library v)) {| gm_api_key := li_data (l_google_map (pp_library v)) |} = Ok gm ->
  take_resources RImage (rnd RImage) 0 (rs_images (pp_resource v)) (option_map rf_images (pp_resource_files v)) = Ok im ->
  take_resources RSound (rnd RSound) 0 (rs_sounds (pp_resource v)) (option_map rf_sounds (pp_resource_files v)) = Ok so ->
  take_resources RFont (rnd RFont) 0 (rs_fonts (pp_resource v)) (option_map rf_fonts (pp_resource_files v)) = Ok fo ->
  exists p, project_try_from rnd v = Ok p /\ sp_screens p = ss /\ sp_custom_views p = cvs /\
    sp_libraries p = {| lb_app_compat := str_eqb (li_use_yn (l_compat (pp_library v))) (lit "Y"); lb_firebase := fb; lb_ad_mob := am; lb_google_map := gm |} /\
    sp_resources p = {| re_images := scollect im; re_sounds := scollect so; re_fonts := scollect fo |}.
Proof.
  intros S C F A G I O Q. unfold project_try_from. cbv zeta. rewrite S. cbn [bind]. rewrite C. cbn [bind]. rewrite F. cbn [bind]. rewrite A. cbn [bind].
  rewrite G. cbn [bind]. rewrite I. cbn [bind]. rewrite O. cbn [bind]. rewrite Q. cbn [bind]. eexists. split; [reflexivity|]. repeat split.
Qed.
Lemma try_from_meta rnd v p : project_try_from rnd v = Ok p ->
  pp_project v = {| pj_id := md_local_id (sp_metadata p); pj_app_name := md_name (sp_metadata p); pj_workspace_name := md_workspace_name (sp_metadata p);
     pj_package_name := md_package_name (sp_metadata p); pj_version_code := md_version_code (sp_metadata p); pj_version_name := md_version_name (sp_metadata p);
     pj_date_created := md_time_created (sp_metadata p); pj_custom_icon := pj_custom_icon (pp_project v);
     pj_palette := {| pal_primary := cs_primary (sp_colors p); pal_primary_dark := cs_primary_dark (sp_colors p); pal_accent := cs_accent (sp_colors p);
                      pal_control_normal := cs_control_normal (sp_colors p); pal_control_highlight := cs_control_highlight (sp_colors p) |};
     pj_sketchware_version := md_sketchware_version (sp_metadata p) |}.
Proof.
  unfold project_try_from. cbv zeta. intros H. apply bind_ok in H as ([ss lays] & S & H). apply bind_ok in H as (cvs & C & H).
  apply bind_ok in H as (fb & F & H). apply bind_ok in H as (am & A & H). apply bind_ok in H as (gm & G & H).
  apply bind_ok in H as (im & I & H). apply bind_ok in H as (so & O & H). apply bind_ok in H as (fo & Q & H). injection H as <-. cbn.
  destruct (pp_project v) as [? ? ? ? ? ? ? ? [? ? ? ? ?] ?]; reflexivity.
Qed.
Lemma into_inv p q : project_into p = Ok q ->
  exists lays imf sof fof,
    put_screens (sp_screens p) [] [] [] = Ok (pp_logic q, lays, vw_fabs (pp_view q)) /\
    put_resources (sp_automatic p) (re_images (sp_resources p)) [] = Ok (rs_images (pp_resource q), imf) /\
    put_resources (sp_automatic p) (re_sounds (sp_resources p)) [] = Ok (rs_sounds (pp_resource q), sof) /\
    put_resources (sp_automatic p) (re_fonts (sp_resources p)) [] = Ok (rs_fonts (pp_resource q), fof) /\
    vw_layouts (pp_view q) = put_custom_views (sp_custom_views p) lays /\
    pp_project q = project_of p /\ pp_library q = library_of (sp_libraries p) /\
    f_activities (pp_file q) = map activity_of (sp_screens p) /\ f_custom_views (pp_file q) = map custom_view_item (sp_custom_views p) /\
    pp_resource_files q = (if sp_automatic p then Some {| rf_custom_icon := sp_custom_icon p; rf_images := imf; rf_sounds := sof; rf_fonts := fof |} else None).
Proof.
  unfold project_into. intros H. apply bind_ok in H as ([[lgs lays] fabs] & S & H). apply bind_ok in H as ([im imf] & I & H).
  apply bind_ok in H as ([so sof] & O & H). apply bind_ok in H as ([fo fof] & F & H). injection H as <-. cbn. exists lays, imf, sof, fof. repeat split; auto.
Qed.
Lemma into_auto_empty p l files is files' : put_resources true l files = Ok (is, files') -> sp_automatic p = true -> files' = files.
Proof. intros H _. apply put_resources_iff in H as (ns & _ & _ & ->). reflexivity. Qed.
Lemma library_back rnd p q : project_into p = Ok q -> 
  library_conv (lit "firebase") (l_firebase (pp_library q))
      {| fb_project_id := li_data (l_firebase (pp_library q)); fb_app_id := li_reserved1 (l_firebase (pp_library q));
         fb_api_key := li_reserved2 (l_firebase (pp_library q)); fb_storage_bucket := li_reserved3 (l_firebase (pp_library q)) |} = Ok (lb_firebase (sp_libraries p)) /\
  library_conv (lit "admob") (l_admob (pp_library q))
      {| am_ad_units := li_ad_units (l_admob (pp_library q)); am_test_devices := li_test_devices (l_admob (pp_library q)) |} = Ok (lb_ad_mob (sp_libraries p)) /\
  library_conv (lit "google map") (l_google_map (pp_library q)) {| gm_api_key := li_data (l_google_map (pp_library q)) |} = Ok (lb_google_map (sp_libraries p)) /\
  str_eqb (li_use_yn (l_compat (pp_library q))) (lit "Y") = lb_app_compat (sp_libraries p) /\ rnd = rnd :> nat.
Proof.
  intros H. apply into_inv in H as (? & ? & ? & ? & _ & _ & _ & _ & _ & _ & -> & _). destruct (sp_libraries p) as [c [[? ? ? ?]|] [[? ?]|] [[?]|]]; destruct c; repeat split.
Qed.

(** ** Screens that come back *)
Lemma fab_view n : same_view n (attrs_of (set_av_parent_type (-1)%Z (set_av_parent None (snd (flatten_node n ROOT 0))))).
Proof.
  pose proof (back_attrs n ROOT 0) as A. pose proof (back_hidden n ROOT 0) as B. pose proof (view_kept n ROOT 0) as C. unfold back in *.
  destruct (snd (flatten_node n ROOT 0)) eqn:E. split; [exact A|]. split; [exact B|exact C].
Qed.
Lemma screen_back (lays : smap layout) (lgs : logic) (fabs : smap android_view) s lg : ready_screen s -> screen_logic_of s = Ok lg -> sget (sc_java_name s) lgs = Some lg ->
  sget (sc_layout_name s) lays = Some (flatten_views (sc_layout s) None None) -> sget (sc_layout_name s) fabs = fab_raw s ->
  exists s', reads_screen lays lgs fabs [] (activity_of s) s' /\ same_screen s s'.
Proof.
  intros (J & NM & NC & G & L) LG G1 G2 G3. destruct (layout_back _ L) as (views & V & SL).
  destruct (proj2 (logic_back_iff s (sc_layout_name s) (sl_name lg) (activity_of s) (flatten_views (sc_layout s) None None)
                    (option_map view_from (fab_raw s)) views NM NC V) G) as (lg' & s' & L' & P & SM).
  assert (lg' = lg) as -> by congruence. exists s'. split.
  - unfold reads_screen. cbn [map rm_all fold_left fi_filename activity_of]. rewrite <- J, G1, G2, G3. exact P.
  - apply from_parsed_fields in P as (E1 & E2 & E3 & E4 & E5 & E6 & E7 & E8 & E9 & E10 & E11 & _).
    assert (JN : sl_name lg = sc_java_name s) by (apply screen_logic_iff in LG as (cs & _ & ->); reflexivity).
    split; [|split; [exact SM|split]].
    + unfold same_settings_of. rewrite E1, E2, E5, E6, E7, E8, E9, E10, E11, JN. repeat split.
    + assert (views = sc_layout s') as <- by congruence. exact SL.
    + rewrite E4. unfold fab_raw. destruct (sc_fab s) as [[n ch]|]; cbn; [|exact I]. split; [apply fab_view|reflexivity].
Qed.
Lemma Forall_Forall2 {A B} (P : A -> B -> Prop) l : (forall x, In x l -> exists y, P x y) -> exists m, Forall2 P l m.
Proof.
  induction l as [|x l IH]; intros H; [exists []; constructor|]. destruct (H x (or_introl eq_refl)) as (y & P1). destruct IH as (m & F); [intros z I; apply H; now right|].
  exists (y :: m). now constructor.
Qed.
Lemma Forall2_map_l {A B C} (f : A -> B) (P : B -> C -> Prop) l m : Forall2 P (map f l) m <-> Forall2 (fun x => P (f x)) l m.
Proof.
  split.
  - revert m; induction l as [|x l IH]; intros m H; inversion H; subst; constructor; auto.
  - induction 1; cbn; constructor; auto.
Qed.
Lemma Forall2_both {A B} (P Q : A -> B -> Prop) l m : Forall2 (fun a b => P a b /\ Q a b) l m <-> Forall2 P l m /\ Forall2 Q l m.
Proof.
  split.
  - induction 1 as [|a b l m [H1 H2] _ [I1 I2]]; split; constructor; auto.
  - intros [H K]. induction H; inversion K; subst; constructor; auto.
Qed.
(** files without numbers: the items written *)
Lemma numbered_back t rnd l is files' : NoDup (map fst l) -> put_resources false l [] = Ok (is, files') ->
  exists ws, take_resources t rnd 0 is None = Ok ws /\ Forall2 (numbered_resource t) l (scollect ws).
Proof.
  intros N H. apply put_resources_iff in H as (ns & F & -> & _). destruct (take_resources_none t rnd (map (fun x => {| ri_full_name := snd x; ri_name := fst x; ri_type := 1 |}) (combine (map fst l) ns)) 0) as (ws & T & W).
  exists ws. split; [exact T|]. clear T.
  assert (K : Forall2 (numbered_resource t) l ws).
  { clear N. revert ns F ws W. induction l as [|[id w] l IH]; intros ns F ws W; cbn in F; inversion F as [|? n ? ns' F1 F2]; subst; cbn in W; inversion W as [|? [k x] ? ws' [W1 (j & W2)] W3]; subst; constructor.
    - cbn in *. subst. split; [reflexivity|]. exists (rnd j), n. split; [exact F1|reflexivity].
    - apply (IH ns' F2 ws' W3). }
  rewrite scollect_nodup; [exact K|]. replace (map fst ws) with (map fst l); [exact N|]. clear -K. induction K as [|a b l m [E _] _ IH]; cbn; congruence.
Qed.
Lemma full_names l : Forall (fun kv : str * res_wrapper => exists n, full_name (snd kv) n) l -> exists ns, Forall2 full_name (map snd l) ns.
Proof. induction 1 as [|[k w] l (n & H) _ (ns & IH)]; [exists []; constructor|]. exists (n :: ns). constructor; auto. Qed.
Lemma put_resources_ok auto l files : Forall (fun kv : str * res_wrapper => exists n, full_name (snd kv) n) l -> exists r, put_resources auto l files = Ok r.
Proof.
  intros H. apply full_names in H as (ns & F). eexists (_, _). apply put_resources_iff. exists ns. split; [exact F|]. split; reflexivity.
Qed.
(** what comes back of a ready project, but for the resources *)
Lemma ready_screens_back p q : ready_project p -> project_into p = Ok q ->
  exists ss lays cvs,
    take_screens (f_activities (pp_file q)) (vw_layouts (pp_view q)) (pp_logic q) (vw_fabs (pp_view q)) = Ok (ss, lays) /\
    take_custom_views (f_custom_views (pp_file q)) lays = Ok cvs /\ Forall2 same_screen (sp_screens p) ss /\ Forall2 same_custom_view (sp_custom_views p) cvs.
Proof.
  intros (RS & RC & NL & NJ) H. apply into_inv in H as (lays & imf & sof & fof & PS & _ & _ & _ & VL & _ & _ & FA & FC & _).
  apply put_screens_get in PS as (_ & O & G1 & G2).
  assert (N1 : NoDup (map sc_layout_name (sp_screens p))) by (apply NoDup_app_inv in NL; tauto).
  assert (N2 : NoDup (map cv_res_name (sp_custom_views p))) by (apply NoDup_app_inv in NL; tauto).
  assert (D : forall k, In k (map sc_layout_name (sp_screens p)) -> ~ In k (map cv_res_name (sp_custom_views p))) by (apply NoDup_app_inv in NL; tauto).
  specialize (G1 NJ). specialize (G2 N1 (fun _ _ => eq_refl)). rewrite FA, FC, VL.
  destruct (put_custom_views_get (sp_custom_views p) lays) as [C1 C2]. specialize (C2 N2).
  assert (X : exists ss, Forall2 (fun s s' => reads_screen (put_custom_views (sp_custom_views p) lays) (pp_logic q) (vw_fabs (pp_view q)) [] (activity_of s) s' /\ same_screen s s') (sp_screens p) ss).
  { apply Forall_Forall2. intros s I. destruct (G1 s I) as (lg & L1 & L2). destruct (G2 s I) as [L3 L4].
    rewrite Forall_forall in RS. eapply screen_back; eauto. rewrite C1; [exact L3|]. apply D. now apply in_map. }
  destruct X as (ss & X). apply Forall2_both in X as [X1 X2].
  assert (NE : map fi_filename (map activity_of (sp_screens p)) = map sc_layout_name (sp_screens p)) by (rewrite map_map; reflexivity).
  assert (NE2 : map view_name_to_logic (map sc_layout_name (sp_screens p)) = map sc_java_name (sp_screens p)).
  { clear -RS. rewrite map_map. apply map_ext_in. intros s I. rewrite Forall_forall in RS. destruct (RS s I) as (J & _). auto. }
  exists ss, (rm_all (map sc_layout_name (sp_screens p)) (put_custom_views (sp_custom_views p) lays)).
  assert (Y : exists cvs, Forall2 (fun c c' => cv_res_name c' = cv_res_name c /\ parse_raw_layout (flatten_views (cv_layout c) None None) = Ok (cv_layout c') /\ same_layout (cv_layout c) (cv_layout c')) (sp_custom_views p) cvs).
  { apply Forall_Forall2. intros c I. rewrite Forall_forall in RC. destruct (layout_back _ (RC c I)) as (F' & P & S). exists {| cv_res_name := cv_res_name c; cv_layout := F' |}. auto. }
  destruct Y as (cvs & Y). exists cvs. split; [|split; [|split; [exact X2|]]].
  - rewrite <- NE at 1. apply take_screens_nodup; [now rewrite NE|now rewrite NE, NE2|]. now apply Forall2_map_l.
  - apply take_custom_views_iff. split; [rewrite map_length; symmetry; eapply Forall2_len; eauto|].
    intros a fe b E. apply map_eq_app in E as (a' & r & Es & <- & Er). apply map_eq_cons in Er as (c & b' & -> & <- & <-).
    rewrite Es in *. apply Forall2_app_inv_l in Y as (c1 & c2 & Y1 & Y2 & ->). inversion Y2 as [|? c' ? c3 (E1 & E2 & _) _]; subst. exists c'.
    split; [rewrite map_length, nth_error_app2 by (apply Forall2_len in Y1; lia); apply Forall2_len in Y1; now rewrite Y1, Nat.sub_diag|].
    split; [exact E1|]. rewrite map_app in N2. cbn [map] in N2. split.
    + apply NoDup_remove_2 in N2. rewrite in_app_iff in N2. rewrite map_map. cbn. intros I. apply N2. left. exact I.
    + exists (flatten_views (cv_layout c) None None). split; [|exact E2]. rewrite sget_rm_all. cbn [fi_filename custom_view_item].
      rewrite (proj2 (mem_not _ _)). { apply C2. rewrite in_app_iff. cbn. auto. }
      intros I. apply (D _ I). rewrite map_app, in_app_iff. cbn. auto.
  - revert Y. clear. induction 1 as [|c c' l m (E1 & _ & E2) _ IH]; constructor; auto. now split.
Qed.
