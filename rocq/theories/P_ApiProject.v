(** Properties C46, C47, C51, C52 and C53: conversion between parsed projects and projects (/repo/src/api/mod.rs). *)
From Coq Require Import Lia.
From Verif Require Import Base Str M_Color M_Raw M_Project M_File M_Library M_Resource M_View M_Logic M_Parsed A_Block A_View A_Screen A_Project
  SpecBlock SpecView SpecScreen SpecProject BlockProofs BlockTripProofs ViewTreeProofs ViewFlatProofs ScreenProofs ApiProjectProofs P_ApiView P_Screen.

(** ** C53 *)
(** what is left for the custom view entries: the layouts that no activity has taken *)
Definition free_layout (v : parsed_project) (name : str) (lay : layout) : Prop :=
  sget name (vw_layouts (pp_view v)) = Some lay /\ ~ In name (map fi_filename (f_activities (pp_file v))).
Lemma screens_settings l lays lgs fabs ss lays' : take_screens l lays lgs fabs = Ok (ss, lays') -> Forall2 same_settings l ss.
Proof.
  revert lays lgs fabs ss lays'; induction l as [|fe l IH]; intros lays lgs fabs ss lays' H; cbn [take_screens] in H.
  - injection H as <- <-. constructor.
  - apply bind_ok in H as (s & S & H). apply map_err_ok in S. apply bind_ok in H as ([ss1 l1] & H & E). injection E as <- <-. constructor; [|eauto].
    apply from_parsed_fields in S as (E1 & _ & _ & _ & E5 & E6 & E7 & E8 & E9 & E10 & E11 & _). unfold same_settings. repeat split; assumption.
Qed.
Theorem C53_screens rnd v p : project_try_from rnd v = Ok p -> Forall2 same_settings (f_activities (pp_file v)) (sp_screens p).
Proof. intros H. apply try_from_inv in H as (lays & im & so & fo & S & _). eapply screens_settings; eauto. Qed.
Print Assumptions C53_screens.
(** the layout of each custom view is that of its entry; the names are distinct *)
Theorem C53_custom_views rnd v p : project_try_from rnd v = Ok p ->
  Forall2 (fun fe c => cv_res_name c = fi_filename fe /\
                       exists lay, free_layout v (fi_filename fe) lay /\ parse_raw_layout lay = Ok (cv_layout c)) (f_custom_views (pp_file v)) (sp_custom_views p) /\
  NoDup (map cv_res_name (sp_custom_views p)).
Proof.
  intros H. apply try_from_inv in H as (lays & im & so & fo & S & C & _). apply take_screens_iff in S as (_ & -> & _).
  revert C. generalize (sp_custom_views p). unfold free_layout. generalize (f_custom_views (pp_file v)). intros l cs H.
  assert (X : forall lays, (forall k lay, sget k lays = Some lay -> free_layout v k lay) -> forall cs, take_custom_views l lays = Ok cs ->
    Forall2 (fun fe c => cv_res_name c = fi_filename fe /\ exists lay, free_layout v (fi_filename fe) lay /\ parse_raw_layout lay = Ok (cv_layout c)) l cs /\
    NoDup (map cv_res_name cs) /\ forall k, In k (map cv_res_name cs) -> sget k lays <> None).
  { clear. induction l as [|fe l IH]; intros lays F cs H; cbn [take_custom_views] in H.
    - injection H as <-. split; [constructor|]. split; [constructor|intros k []].
    - apply bind_ok in H as (lay & G & H). destruct (sget (fi_filename fe) lays) as [x|] eqn:GE; [|discriminate]. injection G as ->.
      apply bind_ok in H as (views & P & H). apply map_err_ok in P. apply bind_ok in H as (cs1 & H & E). injection E as <-.
      apply IH in H as (F1 & N & K).
      2:{ intros k y GY. destruct (str_eqb_spec k (fi_filename fe)) as [->|D]; [rewrite sget_remove_same in GY; discriminate|]. rewrite sget_remove_other in GY by exact D. now apply F. }
      split; [|split].
      + constructor; [|exact F1]. cbn. split; [reflexivity|]. exists lay. split; [now apply F|exact P].
      + cbn. constructor; [|exact N]. intros I. apply K in I. apply I. apply sget_remove_same.
      + intros k [<-|I]; cbn; [congruence|]. apply K in I. destruct (str_eqb_spec k (fi_filename fe)) as [->|D]; [congruence|]. now rewrite sget_remove_other in I. }
  apply X in H as (H1 & H2 & _); [split; assumption|].
  intros k lay G. rewrite sget_rm_all in G. destruct (mem k _) eqn:M; [discriminate|]. split; [exact G|]. intros I. apply mem_in in I. congruence.
Qed.
Print Assumptions C53_custom_views.
(** the same parsed project with other custom view entries *)
Definition with_custom_views (v : parsed_project) (l : list file_item) : parsed_project :=
  {| pp_project := pp_project v; pp_file := {| f_activities := f_activities (pp_file v); f_custom_views := l |}; pp_library := pp_library v;
     pp_resource := pp_resource v; pp_view := pp_view v; pp_logic := pp_logic v; pp_resource_files := pp_resource_files v |}.
(** an entry without a layout: the file has none of that name, or an activity or an earlier custom view has taken it *)
Definition no_layout (v : parsed_project) (before : list file_item) (fe : file_item) : Prop :=
  (forall lay, ~ free_layout v (fi_filename fe) lay) \/ In (fi_filename fe) (map fi_filename before).
Lemma take_custom_views_app a : forall b lays, take_custom_views (a ++ b) lays =
  let* x := take_custom_views a lays in let* y := take_custom_views b (rm_all (map fi_filename a) lays) in Ok (x ++ y).
Proof.
  induction a as [|fe a IH]; intros b lays; cbn [app take_custom_views].
  - cbn. change (fold_left (fun m k => sremove k m) [] lays) with lays. destruct (take_custom_views b lays); reflexivity.
  - destruct (sget (fi_filename fe) lays) as [lay|]; [cbn [ok_or bind]|reflexivity]. destruct (parse_raw_layout lay); cbn [map_err bind]; try reflexivity.
    rewrite IH. change (rm_all (map fi_filename (fe :: a)) lays) with (rm_all (map fi_filename a) (sremove (fi_filename fe) lays)).
    destruct (take_custom_views a (sremove (fi_filename fe) lays)) as [x| |]; cbn [bind]; try reflexivity.
    destruct (take_custom_views b (rm_all (map fi_filename a) (sremove (fi_filename fe) lays))) as [y| |]; cbn [bind]; reflexivity.
Qed.
Lemma take_custom_views_nopanic l : forall lays, take_custom_views l lays <> Panic.
Proof.
  induction l as [|fe l IH]; intros lays; cbn [take_custom_views]; [discriminate|].
  destruct (sget (fi_filename fe) lays) as [lay|]; cbn [ok_or bind]; [|discriminate]. pose proof (C38_no_panic lay) as N.
  destruct (parse_raw_layout lay); cbn [map_err bind]; try congruence. specialize (IH (sremove (fi_filename fe) lays)).
  destruct (take_custom_views l (sremove (fi_filename fe) lays)); cbn [bind]; congruence.
Qed.
(** such an entry is an error; it is the first error if the project with the entries before it can be converted *)
Theorem C53_missing rnd v p l a fe b : project_try_from rnd (with_custom_views v l) = Ok p -> no_layout v a fe ->
  (exists e, project_try_from rnd (with_custom_views v (a ++ fe :: b)) = Err e) /\
  (a = l -> project_try_from rnd (with_custom_views v (a ++ fe :: b)) = Err (XMissingCustomViewLayout (fi_filename fe))).
Proof.
  intros H N. apply try_from_inv in H as (lays & im & so & fo & S & C & _). cbn in S, C.
  pose proof S as S0. apply take_screens_iff in S0 as (_ & -> & _).
  set (lays := rm_all (map fi_filename (f_activities (pp_file v))) (vw_layouts (pp_view v))) in *.
  assert (G : sget (fi_filename fe) (rm_all (map fi_filename a) lays) = None).
  { rewrite sget_rm_all. destruct (mem (fi_filename fe) (map fi_filename a)) eqn:M; [reflexivity|]. destruct N as [N|N]; [|apply mem_in in N; congruence].
    unfold lays. rewrite sget_rm_all. destruct (mem (fi_filename fe) (map fi_filename (f_activities (pp_file v)))) eqn:M2; [reflexivity|]. destruct (sget _ _) as [y|] eqn:GY; [|reflexivity].
    elim (N y). split; [exact GY|]. intros I. apply mem_in in I. congruence. }
  unfold project_try_from. cbv zeta. cbn [pp_file with_custom_views f_activities pp_view pp_logic f_custom_views]. rewrite S. cbn [bind]. rewrite take_custom_views_app.
  cbn [take_custom_views]. rewrite G. cbn [ok_or bind]. split.
  - pose proof (take_custom_views_nopanic a lays) as P. destruct (take_custom_views a lays); cbn [bind]; try congruence; eauto.
  - intros ->. rewrite C. reflexivity.
Qed.
Print Assumptions C53_missing.

(** ** C47 *)
Theorem C47_metadata rnd v p v' : project_try_from rnd v = Ok p -> project_into p = Ok v' ->
  let a := pp_project v in let b := pp_project v' in
  pj_id b = pj_id a /\ pj_app_name b = pj_app_name a /\ pj_workspace_name b = pj_workspace_name a /\ pj_package_name b = pj_package_name a /\
  pj_version_code b = pj_version_code a /\ pj_version_name b = pj_version_name a /\ pj_date_created b = pj_date_created a /\
  pj_sketchware_version b = pj_sketchware_version a /\ pj_palette b = pj_palette a.
Proof.
  intros H K. apply try_from_meta in H. apply into_inv in K as (? & ? & ? & ? & _ & _ & _ & _ & _ & -> & _). cbv zeta. rewrite H. repeat split.
Qed.
Print Assumptions C47_metadata.
(** the flag for a custom icon is not kept: it is set iff there is an icon file *)
Theorem C47_custom_icon rnd v p v' : project_try_from rnd v = Ok p -> project_into p = Ok v' ->
  (pj_custom_icon (pp_project v') = true <-> exists f w, pp_resource_files v = Some f /\ rf_custom_icon f = Some w).
Proof.
  intros H K. apply try_from_inv in H as (? & ? & ? & ? & _ & _ & _ & _ & _ & _ & _ & _ & _ & _ & I & _). apply into_inv in K as (? & ? & ? & ? & _ & _ & _ & _ & _ & -> & _).
  cbn. rewrite I. destruct (pp_resource_files v) as [f|].
  - destruct (rf_custom_icon f) as [w|] eqn:E; split; try discriminate; eauto. intros (f' & w & [= <-] & E2). congruence.
  - split; [discriminate|]. intros (f & w & F & _). discriminate.
Qed.
Print Assumptions C47_custom_icon.
(** the data of a library that the program looks at *)
Definition kept (fields : list (library_item -> str)) (a b : library_item) : Prop :=
  li_use_yn b = li_use_yn a /\ (li_use_yn a = lit "Y" -> forall f, In f fields -> f b = f a).
Lemma library_conv_ok {A} n it (a : A) r : library_conv n it a = Ok r <-> (li_use_yn it = lit "Y" /\ r = Some a) \/ (li_use_yn it = lit "N" /\ r = None).
Proof.
  unfold library_conv. destruct (str_eqb_spec (li_use_yn it) (lit "Y")) as [E|E]; [|destruct (str_eqb_spec (li_use_yn it) (lit "N")) as [E'|E']].
  - split; [intros [= <-]; auto|]. intros [[_ ->]|[E' _]]; [reflexivity|]. rewrite E in E'. discriminate.
  - split; [intros [= <-]; auto|]. intros [[? _]|[_ ->]]; [contradiction|reflexivity].
  - split; [discriminate|]. intros [[? _]|[? _]]; contradiction.
Qed.
Theorem C47_libraries rnd v p v' : project_try_from rnd v = Ok p -> project_into p = Ok v' ->
  let a := pp_library v in let b := pp_library v' in
  kept [li_data; li_reserved1; li_reserved2; li_reserved3] (l_firebase a) (l_firebase b) /\
  kept [] (l_admob a) (l_admob b) /\
  (li_use_yn (l_admob a) = lit "Y" -> li_ad_units (l_admob b) = li_ad_units (l_admob a) /\ li_test_devices (l_admob b) = li_test_devices (l_admob a)) /\
  kept [li_data] (l_google_map a) (l_google_map b) /\
  (li_use_yn (l_compat b) = lit "Y" <-> li_use_yn (l_compat a) = lit "Y") /\
  (forall x, In x [l_firebase; l_compat; l_admob; l_google_map] -> li_use_yn (x b) = lit "Y" \/ li_use_yn (x b) = lit "N").
Proof.
  intros H K. apply try_from_inv in H as (? & ? & ? & ? & _ & _ & F & A & G & C & _). apply into_inv in K as (? & ? & ? & ? & _ & _ & _ & _ & _ & _ & -> & _).
  cbv zeta. apply library_conv_ok in F, A, G. unfold library_of, kept. cbn [l_firebase l_admob l_google_map l_compat li_use_yn]. rewrite C.
  split; [|split; [|split; [|split; [|split]]]].
  - destruct F as [[E ->]|[E ->]]; rewrite E; cbn; (split; [reflexivity|]); intros Q f I; [|discriminate Q].
    destruct I as [<-|[<-|[<-|[<-|[]]]]]; reflexivity.
  - destruct A as [[E ->]|[E ->]]; rewrite E; cbn; split; auto; intros Q f [].
  - destruct A as [[E ->]|[E ->]]; rewrite E; cbn; [auto|discriminate].
  - destruct G as [[E ->]|[E ->]]; rewrite E; cbn; (split; [reflexivity|]); intros Q f I; [|discriminate Q]. destruct I as [<-|[]]. reflexivity.
  - destruct (str_eqb_spec (li_use_yn (l_compat (pp_library v))) (lit "Y")) as [E|E]; split; auto; [discriminate|contradiction].
  - intros y [<-|[<-|[<-|[<-|[]]]]]; cbn [l_firebase l_compat l_admob l_google_map li_use_yn].
    + destruct F as [[E ->]|[E ->]]; auto.
    + destruct (str_eqb (li_use_yn (l_compat (pp_library v))) (lit "Y")); auto.
    + destruct A as [[E ->]|[E ->]]; auto.
    + destruct G as [[E ->]|[E ->]]; auto.
Qed.
Print Assumptions C47_libraries.
(** the same parsed project with other libraries *)
Definition with_library (v : parsed_project) (l : library) : parsed_project :=
  {| pp_project := pp_project v; pp_file := pp_file v; pp_library := l; pp_resource := pp_resource v; pp_view := pp_view v; pp_logic := pp_logic v;
     pp_resource_files := pp_resource_files v |}.
Definition proper (it : library_item) : Prop := li_use_yn it = lit "Y" \/ li_use_yn it = lit "N".
Lemma library_conv_err {A} n it (a : A) : ~ proper it -> library_conv n it a = Err (XInvalidUseYn n (li_use_yn it)).
Proof.
  unfold library_conv, proper. intros P. destruct (str_eqb_spec (li_use_yn it) (lit "Y")) as [E|E]; [tauto|]. destruct (str_eqb_spec (li_use_yn it) (lit "N")) as [E'|E']; [tauto|]. reflexivity.
Qed.
(** Of a project that can be converted, any other library settings give Ok iff the three values are proper, and the
    error of the first improper one otherwise; the value for compat does not matter. *)
Theorem C47_use_yn rnd v p l : project_try_from rnd v = Ok p ->
  ((exists p', project_try_from rnd (with_library v l) = Ok p') <-> proper (l_firebase l) /\ proper (l_admob l) /\ proper (l_google_map l)) /\
  (~ proper (l_firebase l) -> project_try_from rnd (with_library v l) = Err (XInvalidUseYn (lit "firebase") (li_use_yn (l_firebase l)))) /\
  (proper (l_firebase l) -> ~ proper (l_admob l) -> project_try_from rnd (with_library v l) = Err (XInvalidUseYn (lit "admob") (li_use_yn (l_admob l)))) /\
  (proper (l_firebase l) -> proper (l_admob l) -> ~ proper (l_google_map l) ->
   project_try_from rnd (with_library v l) = Err (XInvalidUseYn (lit "google map") (li_use_yn (l_google_map l)))).
Proof.
  intros H. apply try_from_inv in H as (lays & im & so & fo & S & C & _ & _ & _ & _ & I & O & Q & _).
  assert (D : forall it, proper it \/ ~ proper it).
  { intros it. unfold proper. destruct (str_eqb_spec (li_use_yn it) (lit "Y")), (str_eqb_spec (li_use_yn it) (lit "N")); tauto. }
  assert (OK : forall A n it (a : A), proper it -> exists r, library_conv n it a = Ok r).
  { intros A n it a [P|P]; [exists (Some a)|exists None]; apply library_conv_ok; auto. }
  assert (E1 : ~ proper (l_firebase l) -> project_try_from rnd (with_library v l) = Err (XInvalidUseYn (lit "firebase") (li_use_yn (l_firebase l)))).
  { intros P. unfold project_try_from. cbv zeta. cbn [pp_file with_library pp_view pp_logic pp_library]. rewrite S. cbn [bind]. rewrite C. cbn [bind].
    rewrite library_conv_err by exact P. reflexivity. }
  assert (E2 : proper (l_firebase l) -> ~ proper (l_admob l) -> project_try_from rnd (with_library v l) = Err (XInvalidUseYn (lit "admob") (li_use_yn (l_admob l)))).
  { intros P1 P. unfold project_try_from. cbv zeta. cbn [pp_file with_library pp_view pp_logic pp_library]. rewrite S. cbn [bind]. rewrite C. cbn [bind].
    match goal with |- context [library_conv ?n (l_firebase l) ?a] => destruct (OK _ n (l_firebase l) a P1) as (r & ->) end. cbn [bind].
    rewrite library_conv_err by exact P. reflexivity. }
  assert (E3 : proper (l_firebase l) -> proper (l_admob l) -> ~ proper (l_google_map l) ->
     project_try_from rnd (with_library v l) = Err (XInvalidUseYn (lit "google map") (li_use_yn (l_google_map l)))).
  { intros P1 P2 P. unfold project_try_from. cbv zeta. cbn [pp_file with_library pp_view pp_logic pp_library]. rewrite S. cbn [bind]. rewrite C. cbn [bind].
    match goal with |- context [library_conv ?n (l_firebase l) ?a] => destruct (OK _ n (l_firebase l) a P1) as (r & ->) end. cbn [bind].
    match goal with |- context [library_conv ?n (l_admob l) ?a] => destruct (OK _ n (l_admob l) a P2) as (r' & ->) end. cbn [bind].
    rewrite library_conv_err by exact P. reflexivity. }
  split; [|auto]. split.
  - intros (p' & K). destruct (D (l_firebase l)) as [P1|P1]; [|rewrite E1 in K by exact P1; discriminate].
    destruct (D (l_admob l)) as [P2|P2]; [|rewrite E2 in K by assumption; discriminate].
    destruct (D (l_google_map l)) as [P3|P3]; [auto|rewrite E3 in K by assumption; discriminate].
  - intros (P1 & P2 & P3).
    destruct (OK _ (lit "firebase") _ {| fb_project_id := li_data (l_firebase l); fb_app_id := li_reserved1 (l_firebase l); fb_api_key := li_reserved2 (l_firebase l); fb_storage_bucket := li_reserved3 (l_firebase l) |} P1) as (fb & F1).
    destruct (OK _ (lit "admob") _ {| am_ad_units := li_ad_units (l_admob l); am_test_devices := li_test_devices (l_admob l) |} P2) as (am & F2).
    destruct (OK _ (lit "google map") _ {| gm_api_key := li_data (l_google_map l) |} P3) as (gm & F3).
    destruct (try_from_intro rnd (with_library v l) _ _ _ _ _ _ _ _ _ S C F1 F2 F3 I O Q) as (p' & K & _). eauto.
Qed.
Print Assumptions C47_use_yn.

(** ** C51 *)
(** The resource files are not kept, for any project: a project loaded with resource files is converted back
    without them, and one loaded without them is converted back with an empty set of them. *)
Theorem C51_refuted rnd v p q : project_try_from rnd v = Ok p -> project_into p = Ok q ->
  (pp_resource_files v <> None -> pp_resource_files q = None) /\
  (pp_resource_files v = None -> pp_resource_files q = Some {| rf_custom_icon := None; rf_images := []; rf_sounds := []; rf_fonts := [] |}).
Proof.
  intros H K. apply try_from_inv in H as (? & ? & ? & ? & _ & _ & _ & _ & _ & _ & _ & _ & _ & _ & I & A). apply into_inv in K as (? & imf & sof & fof & _ & R1 & R2 & R3 & _ & _ & _ & _ & _ & ->).
  destruct (pp_resource_files v) as [f|]; rewrite A in *; (split; intros N; [try congruence|try congruence]).
  apply put_resources_iff in R1 as (? & _ & _ & ->). apply put_resources_iff in R2 as (? & _ & _ & ->). apply put_resources_iff in R3 as (? & _ & _ & ->). now rewrite I.
Qed.
Print Assumptions C51_refuted.
(** a project that is made from scratch has no resource files when converted, whatever its resources are *)
Theorem C51_new_refuted m c ss cvs l r q : project_into (sw_new m c ss cvs l r) = Ok q -> pp_resource_files q = None.
Proof. intros K. apply into_inv in K as (? & ? & ? & ? & _ & _ & _ & _ & _ & _ & _ & _ & _ & E). exact E. Qed.
Print Assumptions C51_new_refuted.
(** what is kept: the list of resources, with ids and file names *)
Definition files_named (m : smap res_wrapper) : Prop := forall k w, sget k m = Some w -> full_name w k.
Definition name_pair (it : resource_item) : str * str := (ri_name it, ri_full_name it).
Lemma items_kept t rnd is rf ws auto js f : take_resources t rnd 0 is rf = Ok ws -> NoDup (map ri_name is) ->
  (forall m, rf = Some m -> files_named m) -> put_resources auto (scollect ws) [] = Ok (js, f) -> map name_pair js = map name_pair is.
Proof.
  intros T N FN P.
  assert (W : Forall2 (fun it kv => fst kv = ri_name it /\ full_name (snd kv) (ri_full_name it)) is ws).
  { destruct rf as [m|].
    - apply take_resources_some in T as [F _]. revert F. clear -FN. induction 1 as [|it kv l ws [E1 E2] _ IH]; constructor; auto. split; [exact E1|]. now apply (FN m eq_refl).
    - destruct (take_resources_none t rnd is 0) as (ws' & T' & F). assert (ws' = ws) as -> by congruence. revert F. clear.
      induction 1 as [|it kv l ws [E1 (j & E2)] _ IH]; constructor; auto. split; [exact E1|]. rewrite E2. reflexivity. }
  rewrite scollect_nodup in P.
  2:{ replace (map fst ws) with (map ri_name is); [exact N|]. revert W. clear. induction 1 as [|it kv l ws [E1 _] _ IH]; cbn; congruence. }
  apply put_resources_iff in P as (ns & F & -> & _). revert ns F. clear -W. induction W as [|it kv l ws [E1 E2] _ IH]; intros ns F; cbn in F.
  - inversion F. reflexivity.
  - inversion F as [|? n ? ns' F1 F2]; subst. cbn. f_equal; [unfold name_pair; cbn; unfold full_name in *; congruence|]. now apply IH.
Qed.
Theorem C51_partial rnd v p q : project_try_from rnd v = Ok p -> project_into p = Ok q ->
  forall items files, In (items, files) [(rs_images, rf_images); (rs_sounds, rf_sounds); (rs_fonts, rf_fonts)] ->
  NoDup (map ri_name (items (pp_resource v))) -> (forall f, pp_resource_files v = Some f -> files_named (files f)) ->
  map name_pair (items (pp_resource q)) = map name_pair (items (pp_resource v)).
Proof.
  intros H K items files I N FN. apply try_from_inv in H as (? & im & so & fo & _ & _ & _ & _ & _ & _ & T1 & T2 & T3 & R & _).
  apply into_inv in K as (? & imf & sof & fof & _ & R1 & R2 & R3 & _). rewrite R in *. cbn in R1, R2, R3.
  assert (X : forall m, option_map files (pp_resource_files v) = Some m -> files_named m).
  { intros m E. destruct (pp_resource_files v) as [f|]; [|discriminate]. injection E as <-. now apply FN. }
  destruct I as [[= <- <-]|[[= <- <-]|[[= <- <-]|[]]]]; eapply items_kept; eauto.
Qed.
Print Assumptions C51_partial.

(** ** C52 *)
Definition with_screens (p : sw_project) (ss : list screen) : sw_project :=
  {| sp_custom_icon := sp_custom_icon p; sp_metadata := sp_metadata p; sp_colors := sp_colors p; sp_screens := ss;
     sp_custom_views := sp_custom_views p; sp_libraries := sp_libraries p; sp_resources := sp_resources p; sp_automatic := sp_automatic p |}.
(** the screen with other contents, under the same names *)
Definition same_names (s s' : screen) : Prop := sc_layout_name s' = sc_layout_name s /\ sc_java_name s' = sc_java_name s.
Definition has_no_logic (s : screen) : Prop :=
  sc_variables s = [] /\ sc_list_variables s = [] /\ sc_components s = [] /\ sc_more_blocks s = [] /\ sc_events s = [].
Lemma logic_name_differs s : view_name_to_logic s <> s.
Proof.
  intros E. pose proof (C44_no_underscore s) as N. rewrite E in N.
  assert (L : forall cap, length (logic_chars cap s) = length s).
  { clear E. induction s as [|c s IH]; intros cap; [reflexivity|]. cbn [logic_chars]. destruct (c =? UNDERSCORE) eqn:Q.
    - elim N. left. unfold UNDERSCORE in Q. lia.
    - cbn in N. destruct cap; cbn; rewrite IH; auto. }
  apply (f_equal (@length _)) in E. unfold view_name_to_logic in E. rewrite app_length, L in E. cbn in E. lia.
Qed.
Lemma empty_logic n ln jn fe ve fab s : screen_from_parsed ln jn fe ve (screen_new_empty n) fab = Ok s -> has_no_logic s.
Proof.
  unfold screen_from_parsed. intros H. apply bind_ok in H as (views & _ & H). cbn in H. injection H as <-. repeat split.
Qed.
(** the names of an activity without a logic section *)
Lemma loaded_names rnd v p a fe b : project_try_from rnd v = Ok p -> f_activities (pp_file v) = a ++ fe :: b ->
  ~ In (view_name_to_logic (fi_filename fe)) (map fst (pp_logic v)) ->
  exists s, nth_error (sp_screens p) (length a) = Some s /\ sc_layout_name s = fi_filename fe /\ sc_java_name s = fi_filename fe.
Proof.
  intros H E N. apply try_from_inv in H as (lays & im & so & fo & S & _). apply take_screens_iff in S as (_ & _ & K).
  destruct (K a fe b E) as (s & Ns & R). exists s. split; [exact Ns|]. unfold reads_screen in R. rewrite sget_rm_all in R.
  rewrite (sget_notin _ _ N) in R. destruct (mem _ _) in R; apply from_parsed_fields in R as (E1 & E2 & _); auto.
Qed.
Lemma lost_logic rnd p q p' a s b : project_into p = Ok q -> project_try_from rnd q = Ok p' -> sp_screens p = a ++ s :: b ->
  ~ In (view_name_to_logic (sc_layout_name s)) (map sc_java_name (sp_screens p)) ->
  exists s', nth_error (sp_screens p') (length a) = Some s' /\ sc_layout_name s' = sc_layout_name s /\ has_no_logic s'.
Proof.
  intros H K E N. apply into_inv in H as (lays & imf & sof & fof & PS & _ & _ & _ & _ & _ & _ & FA & _).
  apply put_screens_get in PS as (_ & O & _ & _).
  apply try_from_inv in K as (lays' & im & so & fo & S & _). apply take_screens_iff in S as (_ & _ & K). rewrite FA, E, map_app in K. cbn [map] in K.
  destruct (K (map activity_of a) (activity_of s) (map activity_of b) eq_refl) as (s' & Ns & R). rewrite map_length in Ns. exists s'. split; [exact Ns|].
  unfold reads_screen in R. rewrite sget_rm_all in R.
  rewrite (proj1 (O (view_name_to_logic (fi_filename (activity_of s))))) in R by exact N. cbn [sget] in R.
  replace (if mem _ _ then None else None) with (@None screen_logic) in R by (destruct (mem _ _); reflexivity).
  split; [apply from_parsed_fields in R as (E1 & _); exact E1|]. eapply empty_logic; eauto.
Qed.
(** For every activity name without a logic section: whatever is put into the logic of its screen is lost by
    converting and reading back, unless some other screen has the java name that belongs to the activity. *)
Theorem C52_refuted rnd rnd' v p q p' a fe b a' s' b' : project_try_from rnd v = Ok p -> f_activities (pp_file v) = a ++ fe :: b ->
  ~ In (view_name_to_logic (fi_filename fe)) (map fst (pp_logic v)) ->
  Forall2 same_names (sp_screens p) (a' ++ s' :: b') -> length a' = length a ->
  ~ In (view_name_to_logic (fi_filename fe)) (map sc_java_name (a' ++ b')) ->
  project_into (with_screens p (a' ++ s' :: b')) = Ok q -> project_try_from rnd' q = Ok p' ->
  exists s2, nth_error (sp_screens p') (length a) = Some s2 /\ sc_layout_name s2 = fi_filename fe /\ has_no_logic s2.
Proof.
  intros H E N F L NJ I R. destruct (loaded_names _ _ _ _ _ _ H E N) as (s & Ns & E1 & E2).
  assert (SN : same_names s s').
  { apply Forall2_app_inv_r in F as (l1 & l2 & F1 & F2 & Q). rewrite Q in Ns. inversion F2 as [|x ? l3 ? F3 _]; subst.
    apply Forall2_len in F1. rewrite nth_error_app2 in Ns by lia. replace (length a - length l1)%nat with 0%nat in Ns by lia. cbn in Ns. congruence. }
  destruct SN as [S1 S2]. rewrite E1 in S1. rewrite E2 in S2.
  destruct (lost_logic _ _ _ _ a' s' b' I R eq_refl) as (s2 & N2 & Q1 & Q2).
  - cbn [sp_screens with_screens]. rewrite S1. rewrite map_app. cbn [map]. rewrite map_app in NJ. rewrite in_app_iff in *. cbn [In]. intros [J|[J|J]]; [tauto| |tauto].
    rewrite S2 in J. symmetry in J. now apply logic_name_differs in J.
  - exists s2. rewrite L in N2. split; [exact N2|]. split; [congruence|exact Q2].
Qed.
Print Assumptions C52_refuted.
(** What holds: the variables come back if the java name of the screen is that of the activity, and no other activity
    leads to the same name. *)
Theorem C52_partial rnd p q p' a s b : project_into p = Ok q -> project_try_from rnd q = Ok p' -> sp_screens p = a ++ s :: b ->
  sc_java_name s = view_name_to_logic (sc_layout_name s) ->
  ~ In (sc_java_name s) (map sc_java_name (a ++ b)) -> ~ In (sc_java_name s) (map (fun x => view_name_to_logic (sc_layout_name x)) a) ->
  exists s', nth_error (sp_screens p') (length a) = Some s' /\ sc_layout_name s' = sc_layout_name s /\ sc_java_name s' = sc_java_name s /\
    sc_variables s' = sc_variables s /\ sc_list_variables s' = sc_list_variables s.
Proof.
  intros H K E J N1 N2. apply into_inv in H as (lays & imf & sof & fof & PS & _ & _ & _ & _ & _ & _ & FA & _).
  assert (G : exists lg, screen_logic_of s = Ok lg /\ sget (sc_java_name s) (pp_logic q) = Some lg).
  { rewrite E in PS. clear -PS N1. revert PS. generalize (@nil (str * screen_logic)), (@nil (str * layout)), (@nil (str * android_view)).
    induction a as [|x a IH]; intros l0 l1 l2 PS.
    - cbn [app] in PS. rewrite put_screens_eq in PS. apply bind_ok in PS as (lg & L & PS). exists lg. split; [exact L|].
      apply put_screens_get in PS as (_ & O & _ & _). rewrite (proj1 (O _)) by exact N1. apply sget_insert_same.
    - cbn [app] in PS. rewrite put_screens_eq in PS. apply bind_ok in PS as (lg & L & PS). eapply IH; [|exact PS]. cbn in N1. tauto. }
  destruct G as (lg & L & G).
  apply try_from_inv in K as (lays' & im & so & fo & S & _). apply take_screens_iff in S as (_ & _ & K). rewrite FA, E, map_app in K. cbn [map] in K.
  destruct (K (map activity_of a) (activity_of s) (map activity_of b) eq_refl) as (s' & Ns & R). rewrite map_length in Ns. exists s'. split; [exact Ns|].
  unfold reads_screen in R. rewrite sget_rm_all in R. cbn [fi_filename activity_of] in R. rewrite <- J in R. rewrite (proj2 (mem_not _ _)) in R.
  2:{ rewrite !map_map. exact N2. }
  rewrite G in R. apply from_parsed_fields in R as (E1 & E2 & _ & _ & _ & _ & _ & _ & _ & _ & _ & E3 & E4).
  apply screen_logic_iff in L as (cs & _ & ->). cbn in E2, E3, E4. auto.
Qed.
Print Assumptions C52_partial.

(** ** C46 *)
(** No project comes back as it was: the flag that says how resources are found is turned round. *)
Theorem C46_refuted rnd p q p' : project_into p = Ok q -> project_try_from rnd q = Ok p' -> sp_automatic p' = negb (sp_automatic p) /\ p' <> p.
Proof.
  intros H K. apply into_inv in H as (? & ? & ? & ? & _ & _ & _ & _ & _ & _ & _ & _ & _ & E).
  apply try_from_inv in K as (? & ? & ? & ? & _ & _ & _ & _ & _ & _ & _ & _ & _ & _ & _ & A). rewrite E in A.
  assert (X : sp_automatic p' = negb (sp_automatic p)) by (destruct (sp_automatic p); exact A). split; [exact X|]. intros ->. destruct (sp_automatic p); discriminate.
Qed.
Print Assumptions C46_refuted.
(** the parts of a project other than its resources *)
Definition same_project (p p' : sw_project) : Prop :=
  sp_metadata p' = sp_metadata p /\ sp_colors p' = sp_colors p /\ sp_libraries p' = sp_libraries p /\
  Forall2 same_screen (sp_screens p) (sp_screens p') /\ Forall2 same_custom_view (sp_custom_views p) (sp_custom_views p').
Lemma ready_into p : ready_project p -> ready_resources (sp_resources p) -> exists q, project_into p = Ok q.
Proof.
  intros (RS & _) RR. destruct (put_screens_ok (sp_screens p)) with (lgs := @nil (str * screen_logic)) (lays := @nil (str * layout)) (fabs := @nil (str * android_view)) as ([[? ?] ?] & E1).
  { clear RR. induction RS as [|s l R _ IH]; constructor; auto. destruct R as (J & NM & NC & G & L). destruct (layout_back _ L) as (views & V & _).
    destruct (proj2 (logic_back_iff s [] [] (activity_of s) (flatten_views (sc_layout s) None None) None views NM NC V) G) as (lg & _ & E & _). eauto. }
  unfold ready_resources, resources_of in RR.
  destruct (put_resources_ok (sp_automatic p) (re_images (sp_resources p)) [] (proj2 (RR RImage _ (or_introl eq_refl)))) as ([? ?] & E2).
  destruct (put_resources_ok (sp_automatic p) (re_sounds (sp_resources p)) [] (proj2 (RR RSound _ (or_intror (or_introl eq_refl))))) as ([? ?] & E3).
  destruct (put_resources_ok (sp_automatic p) (re_fonts (sp_resources p)) [] (proj2 (RR RFont _ (or_intror (or_intror (or_introl eq_refl)))))) as ([? ?] & E4).
  unfold project_into. rewrite E1. cbn [bind]. rewrite E2. cbn [bind]. rewrite E3. cbn [bind]. rewrite E4. cbn [bind]. eauto.
Qed.
Lemma meta_back rnd p q p' : project_into p = Ok q -> project_try_from rnd q = Ok p' -> sp_metadata p' = sp_metadata p /\ sp_colors p' = sp_colors p.
Proof.
  intros H K. apply try_from_meta in K. apply into_inv in H as (? & ? & ? & ? & _ & _ & _ & _ & _ & E & _). rewrite E in K. unfold project_of in K.
  destruct (sp_metadata p), (sp_metadata p'), (sp_colors p), (sp_colors p'). cbn in K. injection K as -> -> -> -> -> -> -> -> -> -> -> -> ->. auto.
Qed.
Lemma no_files t rnd is ws : take_resources t rnd 0 is (Some []) = Ok ws -> is = [] /\ ws = [].
Proof. destruct is; cbn; [intros [= <-]; auto|discriminate]. Qed.
Lemma no_items auto l f is f' : put_resources auto l f = Ok (is, f') -> (is = [] <-> l = []).
Proof.
  intros H. apply put_resources_iff in H as (ns & F & -> & _). destruct l as [|[k w] l]; inversion F; subst; cbn; split; auto; discriminate.
Qed.
(** What holds: for a project that is ready, without automatic resources, everything but the resource files and
    the custom icon comes back. With automatic resources, everything including the icon comes back if there are
    no resources, and it is an error if there are any. *)
Theorem C46_partial rnd p : ready_project p -> ready_resources (sp_resources p) -> exists q, project_into p = Ok q /\
  (sp_automatic p = false -> exists p', project_try_from rnd q = Ok p' /\ same_project p p' /\ sp_custom_icon p' = None /\
     Forall2 (fun a b => fst b = fst a /\ Forall2 (numbered_resource (fst a)) (snd a) (snd b)) (resources_of (sp_resources p)) (resources_of (sp_resources p'))) /\
  (sp_automatic p = true -> sp_resources p = resources_empty -> exists p', project_try_from rnd q = Ok p' /\ same_project p p' /\
     sp_custom_icon p' = sp_custom_icon p /\ sp_resources p' = resources_empty) /\
  (sp_automatic p = true -> sp_resources p <> resources_empty -> exists id n t, project_try_from rnd q = Err (XMissingResourceFile id n t)).
Proof.
  intros RP RR. destruct (ready_into p RP RR) as (q & H). exists q. split; [exact H|].
  destruct (ready_screens_back p q RP H) as (ss & lays & cvs & S & C & SS & SC). destruct (library_back 0 p q H) as (F1 & F2 & F3 & F4 & _).
  pose proof H as H0. apply into_inv in H0 as (lays1 & imf & sof & fof & _ & R1 & R2 & R3 & _ & _ & _ & _ & _ & RF).
  assert (LB : {| lb_app_compat := str_eqb (li_use_yn (l_compat (pp_library q))) (lit "Y"); lb_firebase := lb_firebase (sp_libraries p);
     lb_ad_mob := lb_ad_mob (sp_libraries p); lb_google_map := lb_google_map (sp_libraries p) |} = sp_libraries p).
  { rewrite F4. destruct (sp_libraries p); reflexivity. }
  split; [|split].
  - intros A. rewrite A in *.
    destruct (numbered_back RImage (rnd RImage) _ _ _ (proj1 (RR RImage _ (or_introl eq_refl))) R1) as (im & T1 & N1).
    destruct (numbered_back RSound (rnd RSound) _ _ _ (proj1 (RR RSound _ (or_intror (or_introl eq_refl)))) R2) as (so & T2 & N2).
    destruct (numbered_back RFont (rnd RFont) _ _ _ (proj1 (RR RFont _ (or_intror (or_intror (or_introl eq_refl))))) R3) as (fo & T3 & N3).
    destruct (try_from_intro rnd q ss lays cvs _ _ _ im so fo S C F1 F2 F3) as (p' & K & P1 & P2 & P3 & P4); try (rewrite RF; assumption).
    exists p'. split; [exact K|]. destruct (meta_back _ _ _ _ H K) as [M1 M2]. split; [|split].
    + split; [exact M1|]. split; [exact M2|]. split; [rewrite P3; exact LB|]. rewrite P1, P2. auto.
    + apply try_from_inv in K as (? & ? & ? & ? & _ & _ & _ & _ & _ & _ & _ & _ & _ & _ & I & _). rewrite RF in I. exact I.
    + rewrite P4. unfold resources_of. cbn. constructor; [auto|]. constructor; [auto|]. constructor; [auto|constructor].
  - intros A E. rewrite A, E in *. cbn in R1, R2, R3. injection R1 as R1 <-. injection R2 as R2 <-. injection R3 as R3 <-.
    destruct (try_from_intro rnd q ss lays cvs _ _ _ [] [] [] S C F1 F2 F3) as (p' & K & P1 & P2 & P3 & P4);
      try (rewrite <- ?R1, <- ?R2, <- ?R3; reflexivity).
    exists p'. split; [exact K|]. destruct (meta_back _ _ _ _ H K) as [M1 M2]. split; [|split].
    + split; [exact M1|]. split; [exact M2|]. split; [rewrite P3; exact LB|]. rewrite P1, P2. auto.
    + apply try_from_inv in K as (? & ? & ? & ? & _ & _ & _ & _ & _ & _ & _ & _ & _ & _ & I & _). rewrite RF in I. exact I.
    + exact P4.
  - intros A E. rewrite A in *.
    assert (imf = []) as -> by (apply put_resources_iff in R1 as (? & _ & _ & ->); reflexivity).
    assert (sof = []) as -> by (apply put_resources_iff in R2 as (? & _ & _ & ->); reflexivity).
    assert (fof = []) as -> by (apply put_resources_iff in R3 as (? & _ & _ & ->); reflexivity).
    unfold project_try_from. cbv zeta. rewrite S. cbn [bind]. rewrite C. cbn [bind]. rewrite F1. cbn [bind]. rewrite F2. cbn [bind]. rewrite F3. cbn [bind].
    rewrite RF. cbn [option_map rf_images rf_sounds rf_fonts].
    apply no_items in R1, R2, R3. destruct (rs_images (pp_resource q)) as [|i l]; [|cbn; eauto].
    destruct (rs_sounds (pp_resource q)) as [|i l]; [|cbn; eauto]. destruct (rs_fonts (pp_resource q)) as [|i l]; [|cbn; eauto].
    elim E. destruct (sp_resources p); cbn in *. unfold resources_empty. f_equal; [apply R1|apply R2|apply R3]; reflexivity.
Qed.
Print Assumptions C46_partial.

(** ** Examples *)
Definition pj0 (icon : bool) : project :=
  {| pj_id := 601; pj_app_name := lit "App"; pj_workspace_name := lit "ws"; pj_package_name := lit "a.b"; pj_version_code := 1; pj_version_name := lit "1.0";
     pj_date_created := 1617772800000; pj_custom_icon := icon;
     pj_palette := {| pal_primary := green; pal_primary_dark := green; pal_accent := green; pal_control_normal := green; pal_control_highlight := green |};
     pj_sketchware_version := 150 |}.
Definition lib0 (fb ads gm compat : string) : library :=
  let it (t : N) (d yn : string) := {| li_ad_units := []; li_data := lit d; li_lib_type := t; li_reserved1 := lit "r1"; li_reserved2 := lit "r2"; li_reserved3 := lit "r3";
     li_test_devices := [lit "dev"]; li_use_yn := lit yn |} in
  {| l_firebase := it 0 "proj"%string fb; l_compat := it 1 ""%string compat; l_admob := it 2 ""%string ads; l_google_map := it 3 "key"%string gm |}.
Definition file_entry (n : string) (t : file_type) (fs : bool) : file_item :=
  {| fi_filename := lit n; fi_type := t; fi_keyboard := KbHidden; fi_options := {| ao_toolbar := true; ao_fullscreen := fs; ao_drawer := false; ao_fab := false |};
     fi_orientation := OrPortrait; fi_theme := ThDefault |}.
Definition logic0 (vars : smap variable) : screen_logic :=
  {| sl_name := lit "MainActivity"; sl_block_containers := [(lit "onCreate_initializeLogic", [raw_toast "hi"])]; sl_variables := Some vars; sl_list_variables := None;
     sl_components := None; sl_events := None; sl_more_blocks := None |}.
(** two activities, the second one without logic and without layout, and a custom view *)
Definition parsed0 (rf : option res_files) (cvs : list string) : parsed_project :=
  {| pp_project := pj0 true;
     pp_file := {| f_activities := [file_entry "main" FtActivity true; file_entry "sign_up" FtActivity false]; f_custom_views := map (fun n => file_entry n FtCustomView false) cvs |};
     pp_library := lib0 "Y" "N" "Y" "N"; 
     pp_resource := {| rs_images := [{| ri_full_name := lit "a.png"; ri_name := lit "a"; ri_type := 1 |}]; rs_sounds := []; rs_fonts := [] |};
     pp_view := {| vw_layouts := [(lit "main", [mk "linear1" 0 "root" 0; mk "text1" 4 "linear1" 0]); (lit "row", [mk "text2" 4 "root" 0])];
                   vw_fabs := [(lit "main", mk "_fab" 16 "root" 0)] |};
     pp_logic := [(lit "MainActivity", logic0 [])]; pp_resource_files := rf |}.
Definition rnd0 (t : res_type) (i : nat) : N := N.of_nat i + 7.
Definition files0 : res_files :=
  {| rf_custom_icon := Some (WStringId (lit "x") (lit "icon.png") RCustomIcon); rf_images := [(lit "a.png", WStringId (lit "id1") (lit "a.png") RImage)]; rf_sounds := []; rf_fonts := [] |}.
Definition brief (p : sw_project) := (map sc_layout_name (sp_screens p), map sc_java_name (sp_screens p), map sc_fullscreen (sp_screens p), map (fun s => map vid (sc_layout s)) (sp_screens p),
  map cv_res_name (sp_custom_views p), map (fun s => length (sc_events s)) (sp_screens p)).
Example C53_example :
  rmap brief (project_try_from rnd0 (parsed0 None ["row"%string])) =
    Ok ([lit "main"; lit "sign_up"], [lit "MainActivity"; lit "sign_up"], [true; false], [[lit "linear1"]; []], [lit "row"], [1%nat; 0%nat]) /\
  rmap brief (project_try_from rnd0 (parsed0 None ["row"%string; "row"%string])) = Err (XMissingCustomViewLayout (lit "row")) /\
  rmap brief (project_try_from rnd0 (parsed0 None ["main"%string])) = Err (XMissingCustomViewLayout (lit "main")).
Proof. split; [vm_compute; reflexivity|]. split; vm_compute; reflexivity. Qed.
Definition there_and_back (v : parsed_project) : res project_error parsed_project :=
  let* p := project_try_from rnd0 v in match project_into p with Ok q => Ok q | _ => Panic end.
Example C47_example :
  rmap (fun q => (pp_project q, map (fun x => li_use_yn (x (pp_library q))) [l_firebase; l_compat; l_admob; l_google_map], li_reserved2 (l_firebase (pp_library q)),
                  li_test_devices (l_admob (pp_library q)), li_data (l_google_map (pp_library q)))) (there_and_back (parsed0 None ["row"%string])) =
    Ok (pj0 false, [lit "Y"; lit "N"; lit "N"; lit "Y"], lit "r2", [], lit "key") /\
  rmap (fun q => pj_custom_icon (pp_project q)) (there_and_back (parsed0 (Some files0) [])) = Ok true /\
  rmap brief (project_try_from rnd0 (with_library (parsed0 None []) (lib0 "Y" "y" "" "N"))) = Err (XInvalidUseYn (lit "admob") (lit "y")) /\
  rmap (fun p => lb_app_compat (sp_libraries p)) (project_try_from rnd0 (with_library (parsed0 None []) (lib0 "N" "N" "N" "perhaps"))) = Ok false.
Proof. split; [vm_compute; reflexivity|]. split; [vm_compute; reflexivity|]. split; vm_compute; reflexivity. Qed.
(** both ways of loading, and what is written *)
Example C51_example :
  rmap (fun q => (pp_resource_files q, map name_pair (rs_images (pp_resource q)))) (there_and_back (parsed0 (Some files0) [])) = Ok (None, [(lit "a", lit "a.png")]) /\
  rmap (fun q => (pp_resource_files q, map name_pair (rs_images (pp_resource q)))) (there_and_back (parsed0 None [])) =
    Ok (Some {| rf_custom_icon := None; rf_images := []; rf_sounds := []; rf_fonts := [] |}, [(lit "a", lit "a.png")]) /\
  files_named (rf_images files0).
Proof.
  split; [vm_compute; reflexivity|]. split; [vm_compute; reflexivity|].
  intros k w H. cbn [files0 rf_images] in H. apply sget_some_in in H. destruct H as [[= <- <-]|[]]. reflexivity.
Qed.
(** a variable is added to both screens *)
Definition add_variable (s : screen) : screen :=
  {| sc_layout_name := sc_layout_name s; sc_java_name := sc_java_name s; sc_layout := sc_layout s;
     sc_variables := sinsert (lit "n") {| va_name := lit "n"; va_type := VtInteger |} (sc_variables s);
     sc_list_variables := sc_list_variables s; sc_more_blocks := sc_more_blocks s; sc_components := sc_components s; sc_events := sc_events s; sc_fab := sc_fab s;
     sc_fullscreen := sc_fullscreen s; sc_toolbar := sc_toolbar s; sc_drawer := sc_drawer s; sc_fab_enabled := sc_fab_enabled s; sc_orientation := sc_orientation s;
     sc_theme := sc_theme s; sc_keyboard := sc_keyboard s |}.
Definition add_and_reload (v : parsed_project) : res project_error sw_project :=
  let* p := project_try_from rnd0 v in
  match project_into (with_screens p (map add_variable (sp_screens p))) with Ok q => project_try_from rnd0 q | _ => Panic end.
Example C52_example :
  rmap (fun p => map (fun s => (sc_layout_name s, map fst (sc_variables s))) (sp_screens p)) (add_and_reload (parsed0 (Some files0) ["row"%string])) =
    Ok [(lit "main", [lit "n"]); (lit "sign_up", [])] /\
  ~ In (view_name_to_logic (lit "sign_up")) (map fst (pp_logic (parsed0 (Some files0) ["row"%string]))).
Proof. split; [vm_compute; reflexivity|]. vm_compute. intros [H|[]]. discriminate H. Qed.

Definition screen46 : screen :=
  {| sc_layout_name := lit "my_page"; sc_java_name := lit "MyPageActivity"; sc_layout := forest1; sc_variables := [(lit "n", {| va_name := lit "n"; va_type := VtInteger |})];
     sc_list_variables := []; sc_more_blocks := [(lit "say", {| am_name := lit "say"; am_spec := [SText (lit "say")]; am_code := [toast "said"] |})];
     sc_components := [(lit "t", CkTimer)];
     sc_events := [ev "onCreate" EtActivity [toast "hi"]; ev "onClick" (EtView (lit "text1")) [toast "one"]]; sc_fab := Some (leafv "_fab" 16);
     sc_fullscreen := true; sc_toolbar := false; sc_drawer := false; sc_fab_enabled := true; sc_orientation := OrPortrait; sc_theme := ThDefault; sc_keyboard := KbHidden |}.
Definition project46 (auto : bool) : sw_project :=
  {| sp_custom_icon := Some (WPath (lit "/i.png"));
     sp_metadata := {| md_local_id := 601; md_name := lit "App"; md_workspace_name := lit "ws"; md_package_name := lit "a.b"; md_time_created := 1; md_sketchware_version := 150;
                       md_version_name := lit "1.0"; md_version_code := 1 |};
     sp_colors := {| cs_primary := green; cs_primary_dark := green; cs_accent := green; cs_control_normal := green; cs_control_highlight := green |};
     sp_screens := [screen46]; sp_custom_views := [{| cv_res_name := lit "row"; cv_layout := [leafv "text1" 4] |}];
     sp_libraries := {| lb_app_compat := true; lb_firebase := None; lb_ad_mob := None; lb_google_map := Some {| gm_api_key := lit "key" |} |};
     sp_resources := {| re_images := [(lit "a", WPath (lit "/home/x/a.png"))]; re_sounds := []; re_fonts := [] |}; sp_automatic := auto |}.
Definition again (p : sw_project) : res project_error sw_project := match project_into p with Ok q => project_try_from rnd0 q | _ => Panic end.
Example C46_example auto :
  ready_project (project46 auto) /\ ready_resources (sp_resources (project46 auto)) /\
  rmap (fun p => (sp_resources p, sp_custom_icon p, sp_automatic p, sp_libraries p)) (again (project46 false)) =
    Ok ({| re_images := [(lit "a", WU32Id 7 (lit "a.png") RImage)]; re_sounds := []; re_fonts := [] |}, None, true, sp_libraries (project46 auto)) /\
  rmap (fun p => map (fun s => (fids (sc_layout s), map fst (sc_variables s), sc_events s)) (sp_screens p)) (again (project46 false)) =
    Ok [([lit "linear1"; lit "text1"; lit "vscroll1"; lit "check1"; lit "seek1"; lit "map1"], [lit "n"], sc_events screen46)] /\
  rmap brief (again (project46 true)) = Err (XMissingResourceFile (lit "a") (lit "a.png") RImage).
Proof.
  split; [|split; [|split; [vm_compute; reflexivity|split; vm_compute; reflexivity]]].
  - split; [|split; [|split]]; cbn [project46 sp_screens sp_custom_views map].
    + constructor; [|constructor]. split; [vm_compute; reflexivity|]. split; [|split; [|split]].
      * repeat constructor. intros [].
      * repeat constructor. intros [].
      * split; [|split; [|split]]; cbn [screen46 sc_more_blocks sc_events].
        -- constructor; [|constructor]. split; [reflexivity|]. split; [discriminate|]. split.
           ++ constructor; [|constructor]. split; [cbn; intuition discriminate|intros (r & E); discriminate E].
           ++ apply toast_survives; cbn; auto.
        -- constructor; [apply toast_survives; cbn; auto|]. constructor; [apply toast_survives; cbn; auto|]. constructor.
        -- intros a e b E [(o & I & C)|(kv & I & C)].
           ++ exfalso. destruct a as [|x1 [|x2 a]]; cbn in E; inversion E; subst; cbn in I; repeat (destruct I as [<-|I]; [vm_compute in C; discriminate|]); try contradiction.
              destruct a; discriminate.
           ++ exfalso. cbn in I. destruct I as [<-|[]]. destruct a as [|x1 [|x2 a]]; cbn in E; inversion E; subst; try (vm_compute in C; discriminate). destruct a; discriminate.
        -- right. eexists _, _. split; [reflexivity|]. split; [reflexivity|]. split; [reflexivity|]. intros x [<-|[]]. vm_compute. discriminate.
      * split; cbn; [repeat constructor; cbn; intuition congruence|intuition congruence].
    + constructor; [|constructor]. split; cbn; [repeat constructor; cbn; intuition congruence|intuition congruence].
    + repeat constructor; cbn; intuition congruence.
    + repeat constructor; cbn; intuition congruence.
  - intros t m [[= <- <-]|[[= <- <-]|[[= <- <-]|[]]]]; (split; [repeat constructor; cbn; intuition congruence|]); [|constructor|constructor].
    constructor; [|constructor]. exists (lit "a.png"). vm_compute. reflexivity.
Qed.
