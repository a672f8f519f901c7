(** Property C50: a parsed project and its six data files (/repo/src/parser/mod.rs L133-240). *)
From Coq Require Import Lia Permutation.
From Verif Require Import Base Spec Str M_Color M_Date M_Raw M_Project M_File M_Library M_Resource M_View M_Logic M_Parsed
  LibraryProofs ResFilesProofs DateProofs ProjectProofs ScreenProofs P_Files P_Project P_View P_Logic.

(** ** Sameness *)
(** two sets of resource files with the same contents (a [HashMap] has no order) *)
Definition same_files (a b : res_files) : Prop :=
  rf_custom_icon b = rf_custom_icon a /\ (forall n, sget n (rf_images b) = sget n (rf_images a)) /\
  (forall n, sget n (rf_sounds b) = sget n (rf_sounds a)) /\ (forall n, sget n (rf_fonts b) = sget n (rf_fonts a)).
(** equal, up to the order of the screens in the logic *)
Definition same_parsed (a b : parsed_project) : Prop :=
  pp_project b = pp_project a /\ pp_file b = pp_file a /\ pp_library b = pp_library a /\ pp_resource b = pp_resource a /\ pp_view b = pp_view a /\
  Permutation (pp_logic b) (pp_logic a) /\
  match pp_resource_files a, pp_resource_files b with None, None => True | Some f, Some g => same_files f g | _, _ => False end.

(** ** Conditions *)
(** what a program can hold and the formats can name; the date is one that chrono has *)
Definition typed_parsed (p : parsed_project) (dt : datetime) : Prop :=
  in_range (pp_project p) /\ datetime_of_timestamp (i64_of_u64 (pj_date_created (pp_project p))) = Some dt /\
  (forall x, In x [l_firebase; l_compat; l_admob; l_google_map] -> li_lib_type (x (pp_library p)) < 256) /\
  Forall (fun i => ri_type i < 256) (rs_images (pp_resource p) ++ rs_sounds (pp_resource p) ++ rs_fonts (pp_resource p)) /\
  view_typed (pp_view p) /\ logic_typed (pp_logic p).
(** every resource file is filed where reading would file it *)
Definition well_filed (ex : str -> bool) (f : res_files) : Prop :=
  (forall w, rf_custom_icon f = Some w -> exists n, wrapper_class ex w RCustomIcon n) /\
  (forall n w, sget n (rf_images f) = Some w -> wrapper_class ex w RImage n) /\
  (forall n w, sget n (rf_sounds f) = Some w -> wrapper_class ex w RSound n) /\
  (forall n w, sget n (rf_fonts f) = Some w -> wrapper_class ex w RFont n).
Definition distinct_files (f : res_files) : Prop := NoDup (map fst (rf_images f)) /\ NoDup (map fst (rf_sounds f)) /\ NoDup (map fst (rf_fonts f)).
(** what the formats can tell apart *)
Definition readable_parsed (ex : str -> bool) (p : parsed_project) (dt : datetime) : Prop :=
  date_kept dt /\ (f_activities (pp_file p) <> [] \/ f_custom_views (pp_file p) = []) /\ separable_view (pp_view p) /\
  nonempty_screens (pp_logic p) /\ containers_first (pp_logic p) /\
  forall f, pp_resource_files p = Some f -> well_filed ex f.

(** ** Resource files *)
Lemma unique_last {A} (P : A -> Prop) l w : (forall x, In x l -> P x \/ ~ P x) -> In w l -> P w -> (forall y, In y l -> P y -> y = w) -> is_last P l w.
Proof.
  induction l as [|x l IH] using rev_ind; intros D I Pw U; [contradiction|]. apply is_last_snoc; [apply D, in_or_app; right; now left|].
  destruct (D x) as [Px|Px]; [apply in_or_app; right; now left|left|right].
  - split; [exact Px|]. symmetry. apply U; [apply in_or_app; right; now left|exact Px].
  - split; [exact Px|]. apply IH; auto.
    + intros y Iy. apply D, in_or_app. now left.
    + apply in_app_or in I as [I|[<-|[]]]; [exact I|contradiction].
    + intros y Iy. apply U, in_or_app. now left.
Qed.
Lemma files_back ex f ws : distinct_files f -> res_files_into f ws ->
  ((exists g, res_files_try_from ex ws = Ok g /\ same_files f g) <-> well_filed ex f).
Proof.
  intros (D1 & D2 & D3) (im & so & fo & Pi & Ps & Pf & E). split.
  - intros (g & H & (S0 & S1 & S2 & S3)). apply collect_filed in H as (A & B & _). split; [|split; [|split]].
    + intros w W. rewrite <- S0 in W. apply B in W as (a & b & _ & C & _). exact C.
    + intros n w W. rewrite <- S1 in W. apply (A RImage) in W as (a & b & _ & C & _); [exact C|discriminate].
    + intros n w W. rewrite <- S2 in W. apply (A RSound) in W as (a & b & _ & C & _); [exact C|discriminate].
    + intros n w W. rewrite <- S3 in W. apply (A RFont) in W as (a & b & _ & C & _); [exact C|discriminate].
  - intros (W0 & W1 & W2 & W3).
    assert (V : forall (m : smap res_wrapper) l w, NoDup (map fst m) -> Permutation l (map snd m) -> In w l -> exists n, sget n m = Some w).
    { intros m l w ND P I. apply (Permutation_in _ P) in I. apply in_map_iff in I as ([n x] & <- & I). exists n. now apply sget_in. }
    assert (IN : forall w, In w ws -> rf_custom_icon f = Some w \/ (exists t n, t <> RCustomIcon /\ sget n (rf_of t f) = Some w /\ wrapper_class ex w t n)).
    { intros w. rewrite E, !in_app_iff. intros [I|[I|[I|I]]].
      - left. destruct (rf_custom_icon f); [destruct I as [->|[]]; reflexivity|contradiction].
      - right. destruct (V _ _ _ D1 Pi I) as (n & G). exists RImage, n. repeat split; [discriminate|exact G|now apply W1].
      - right. destruct (V _ _ _ D2 Ps I) as (n & G). exists RSound, n. repeat split; [discriminate|exact G|now apply W2].
      - right. destruct (V _ _ _ D3 Pf I) as (n & G). exists RFont, n. repeat split; [discriminate|exact G|now apply W3]. }
    assert (CL : forall w, In w ws -> exists t n, wrapper_class ex w t n).
    { intros w I. destruct (IN w I) as [G|(t & n & _ & _ & C)]; [destruct (W0 w G) as (n & C)|]; eauto. }
    destruct (proj2 (rf_collect_defined ex ws res_files_default)) as (g & H); [now apply Forall_forall|].
    exists g. split; [exact H|]. apply collect_filed in H as (A & B & _).
    assert (WF : forall t n w, t <> RCustomIcon -> sget n (rf_of t f) = Some w -> wrapper_class ex w t n /\ In w ws).
    { intros t n w T G. rewrite E, !in_app_iff. destruct t; cbn in G; try congruence.
      - split; [now apply W1|]. right; left. apply (Permutation_in _ (Permutation_sym Pi)). apply sget_some_in in G. apply (in_map snd) in G. exact G.
      - split; [now apply W2|]. right; right; left. apply (Permutation_in _ (Permutation_sym Ps)). apply sget_some_in in G. apply (in_map snd) in G. exact G.
      - split; [now apply W3|]. right; right; right. apply (Permutation_in _ (Permutation_sym Pf)). apply sget_some_in in G. apply (in_map snd) in G. exact G. }
    assert (U : forall t n w, t <> RCustomIcon -> In w ws -> wrapper_class ex w t n -> sget n (rf_of t f) = Some w).
    { intros t n w T I C. destruct (IN w I) as [G|(t' & n' & T' & G & C')].
      - destruct (W0 w G) as (n' & C'). destruct (wrapper_class_fun _ _ _ _ _ _ C C'). contradiction.
      - destruct (wrapper_class_fun _ _ _ _ _ _ C C') as [-> ->]. exact G. }
    assert (K : forall t n, t <> RCustomIcon -> sget n (rf_of t g) = sget n (rf_of t f)).
    { intros t n T. destruct (sget n (rf_of t f)) as [w|] eqn:G.
      - apply A; [exact T|]. destruct (WF t n w T G) as [C I]. apply unique_last; auto.
        + intros x Ix. destruct (CL x Ix) as (t' & n' & C'). eapply class_dec; eauto.
        + intros y Iy Cy. apply (U t n y T Iy) in Cy. congruence.
      - destruct (sget n (rf_of t g)) as [w|] eqn:G'; [|reflexivity]. apply A in G' as (a & b & Ew & C & _); [|exact T].
        rewrite (U t n w T) in G; [discriminate| |exact C]. rewrite Ew. apply in_or_app. right; now left. }
    split; [|split; [|split]].
    + assert (UI : forall w n, In w ws -> wrapper_class ex w RCustomIcon n -> rf_custom_icon f = Some w).
      { intros w n I C. destruct (IN w I) as [G|(t' & n' & T' & G & C')]; [exact G|]. destruct (wrapper_class_fun _ _ _ _ _ _ C C'). congruence. }
      destruct (rf_custom_icon f) as [w|] eqn:G.
      * apply B. apply unique_last.
        -- intros x Ix. destruct (CL x Ix) as (t' & n' & C'). destruct t'; try (right; intros (n & C); destruct (wrapper_class_fun _ _ _ _ _ _ C C'); congruence). left; eauto.
        -- rewrite E. apply in_or_app. left. now left.
        -- now apply W0.
        -- intros y Iy (n & Cy). apply (UI y n Iy) in Cy. congruence.
      * destruct (rf_custom_icon g) as [w|]; [|reflexivity]. destruct (proj1 (B w) eq_refl) as (a & b & Ew & (n & C) & _).
        apply UI in C; [discriminate|]. rewrite Ew. apply in_or_app. right; now left.
    + intros n. apply (K RImage). discriminate.
    + intros n. apply (K RSound). discriminate.
    + intros n. apply (K RFont). discriminate.
Qed.

(** ** The whole project *)
Lemma parse_from_ok mv ex r p : parse_from mv ex r = Ok p <->
  project_parse (rp_project r) = Ok (pp_project p) /\ file_parse (rp_file r) = Ok (pp_file p) /\ library_parse (rp_library r) = Ok (pp_library p) /\
  resource_parse (rp_resource r) = Ok (pp_resource p) /\ view_parse (rp_view r) = Ok (pp_view p) /\ logic_parse mv (rp_logic r) = Ok (pp_logic p) /\
  match rp_resource_files r with
  | None => pp_resource_files p = None
  | Some ws => exists g, res_files_try_from ex ws = Ok g /\ pp_resource_files p = Some g
  end.
Proof.
  unfold parse_from. split.
  - intros H. repeat (apply bind_ok in H as (? & H0 & H); apply map_err_ok in H0; revert H0). injection H as <-. cbn. intros F R1 R2 R3 R4 R5 R6.
    repeat (split; [assumption|]). destruct (rp_resource_files r) as [ws|]; [|congruence].
    destruct (res_files_try_from ex ws) as [g| |]; try discriminate. injection F as <-. eauto.
  - intros (R1 & R2 & R3 & R4 & R5 & R6 & F). rewrite R1, R2, R3, R4, R5, R6. cbn [map_err bind].
    destruct (rp_resource_files r) as [ws|]; [destruct F as (g & -> & F)|]; cbn [rmap map_err bind]; destruct p; cbn in *; congruence.
Qed.
(** the six files can always be written *)
Theorem C50_written p dt : typed_parsed p dt -> exists r, into_raw p r.
Proof.
  intros (R & H & _). pose proof (project_back _ R) as P. rewrite H in P. destruct P as (s & E & _).
  exists {| rp_project := s; rp_file := file_reconstruct (pp_file p); rp_library := library_reconstruct (pp_library p); rp_resource := resource_reconstruct (pp_resource p);
            rp_view := view_reconstruct (pp_view p); rp_logic := logic_reconstruct (pp_logic p);
            rp_resource_files := match pp_resource_files p with
              | None => None
              | Some f => Some ((match rf_custom_icon f with Some w => [w] | None => [] end) ++ map snd (rf_images f) ++ map snd (rf_sounds f) ++ map snd (rf_fonts f))
              end |}.
  split; [cbn; unfold data_files; rewrite E; reflexivity|]. cbn. destruct (pp_resource_files p) as [f|]; [|reflexivity].
  eexists. split; [reflexivity|]. exists (map snd (rf_images f)), (map snd (rf_sounds f)), (map snd (rf_fonts f)). auto.
Qed.
Print Assumptions C50_written.
(** Exact: the parsed project comes back iff it is readable, for every order in which the hash maps are written, both
    behaviours of the linked hash map and every file system. *)
Theorem C50_exact mv ex p dt r : typed_parsed p dt -> (forall f, pp_resource_files p = Some f -> distinct_files f) -> into_raw p r ->
  ((exists p', parse_from mv ex r = Ok p' /\ same_parsed p p') <-> readable_parsed ex p dt).
Proof.
  intros (R & H & L & RS & V & G) DF [DA RF]. pose proof (project_back _ R) as P. rewrite H in P. destruct P as (s & E & PP).
  unfold data_files in DA. rewrite E in DA. cbn [bind] in DA. injection DA as D1 D2 D3 D4 D5 D6.
  assert (LB : library_parse (library_reconstruct (pp_library p)) = Ok (pp_library p)).
  { apply C17_roundtrip. intros []; cbn [lib_field]; apply L; cbn; auto. }
  pose proof (C18_roundtrip _ RS) as RB. pose proof (C20_exact _ V) as VB. destruct (C22_exact mv _ G) as (g & GB & GP).
  split.
  - intros (p' & K & S1 & S2 & S3 & S4 & S5 & S6 & S7). apply parse_from_ok in K as (K1 & K2 & K3 & K4 & K5 & K6 & K7).
    rewrite S1, <- D1 in K1. rewrite S2, <- D2 in K2. rewrite <- D5, S5 in K5. rewrite <- D6, GB in K6. injection K6 as K6. rewrite <- K6 in S6. apply GP in S6 as [N C].
    split; [|split; [|split; [|split; [|split]]]]; auto.
    + apply (back_iff _ _ R H). rewrite K1 in PP. now apply created_back in PP.
    + destruct (f_activities (pp_file p)) as [|a l] eqn:EA; [right|left; discriminate].
      destruct (f_custom_views (pp_file p)) as [|c m] eqn:EC; [reflexivity|]. exfalso. apply (proj2 (C16_refuted (pp_file p) EA ltac:(congruence))). exact K2.
    + now apply VB.
    + intros f F. rewrite F in *. destruct RF as (ws & RW & RI). rewrite RW in K7. destruct K7 as (h & K7 & K8). rewrite K8 in S7.
      apply (files_back ex f ws (DF f eq_refl) RI). eauto.
  - intros (T & FA & SV & N & C & WF). apply (back_iff _ _ R H) in T. rewrite T in PP. cbn [bind] in PP. rewrite with_created_same in PP.
    assert (X : exists o, match rp_resource_files r with None => o = None | Some ws => exists g, res_files_try_from ex ws = Ok g /\ o = Some g end /\
      match pp_resource_files p, o with None, None => True | Some f, Some g => same_files f g | _, _ => False end).
    { destruct (pp_resource_files p) as [f|].
      - destruct RF as (ws & -> & RI). destruct (proj2 (files_back ex f ws (DF f eq_refl) RI) (WF f eq_refl)) as (h & H1 & H2). exists (Some h). eauto.
      - rewrite RF. exists None. auto. }
    destruct X as (o & O1 & O2).
    exists {| pp_project := pp_project p; pp_file := pp_file p; pp_library := pp_library p; pp_resource := pp_resource p; pp_view := pp_view p; pp_logic := g; pp_resource_files := o |}.
    split.
    + apply parse_from_ok. cbn. rewrite <- D1, <- D2, <- D3, <- D4, <- D5, <- D6. split; [exact PP|]. split; [now apply C16_roundtrip_partial|]. split; [exact LB|]. split; [exact RB|].
      split; [now apply VB|]. split; [exact GB|exact O1].
    + repeat (split; [reflexivity|]). cbn. split; [apply GP; auto|exact O2].
Qed.
Print Assumptions C50_exact.
(** the order of the screens is kept as well if every screen has a container and variables *)
Theorem C50_partial mv ex p dt : typed_parsed p dt -> (forall f, pp_resource_files p = Some f -> distinct_files f) -> readable_parsed ex p dt ->
  (exists r, into_raw p r) /\
  forall r, into_raw p r -> exists p', parse_from mv ex r = Ok p' /\ same_parsed p p' /\
    (Forall (fun kv => sl_block_containers (snd kv) <> [] /\ sl_variables (snd kv) <> None) (pp_logic p) -> pp_logic p' = pp_logic p).
Proof.
  intros T D R. split; [now apply (C50_written p dt)|]. intros r I. destruct (proj2 (C50_exact mv ex p dt r T D I) R) as (p' & K & S).
  exists p'. split; [exact K|]. split; [exact S|]. intros F. apply parse_from_ok in K as (_ & _ & _ & _ & _ & K & _).
  destruct I as [DA _]. unfold data_files in DA. destruct (project_reconstruct (pp_project p)); try discriminate. cbn [bind] in DA. injection DA as _ _ _ _ _ D6.
  rewrite <- D6 in K. destruct T as (_ & _ & _ & _ & _ & G).
  destruct (C22_order _ G) as [O1 O2]; [eapply Forall_impl; [|exact F]; cbn; tauto|].
  destruct mv; [congruence|]. rewrite O2 in K; [congruence|]. eapply Forall_impl; [|exact F]; cbn; tauto.
Qed.
Print Assumptions C50_partial.
(** False in general: a project with two screens, the first of which has a view, is never read back *)
Theorem C50_refuted mv ex p r pre n l n2 l2 post : view_typed (pp_view p) -> vw_layouts (pp_view p) = pre ++ (n, l) :: (n2, l2) :: post -> l <> [] ->
  into_raw p r -> forall p', parse_from mv ex r <> Ok p'.
Proof.
  intros V E N [DA _] p' K. apply parse_from_ok in K as (_ & _ & _ & _ & K & _). unfold data_files in DA.
  destruct (project_reconstruct (pp_project p)); try discriminate. cbn [bind] in DA. injection DA as _ _ _ _ D5 _.
  destruct (C20_two_layouts_refuted _ _ _ _ _ _ _ V E N) as (e & F). congruence.
Qed.
Print Assumptions C50_refuted.

(** a project with all six files and resource files *)
Definition ex_parsed (date : N) (rf : option res_files) : parsed_project :=
  {| pp_project := ex_project date; pp_file := {| f_activities := [ex_file_item]; f_custom_views := [ex_file_item] |}; pp_library := ex_library;
     pp_resource := {| rs_images := [{| ri_full_name := lit "x.png"; ri_name := lit "x"; ri_type := 1 |}]; rs_sounds := []; rs_fonts := [] |};
     pp_view := ex_view; pp_logic := [ex_screen (lit "B") ex_con; ex_screen (lit "A") ex_con]; pp_resource_files := rf |}.
Definition ex_files : res_files :=
  {| rf_custom_icon := Some (WPath (lit "icons/601/icon.png")); rf_images := [(lit "x.png", WU32Id 3 (lit "x.png") RImage)]; rf_sounds := []; rf_fonts := [] |}.
Definition ex_date : datetime := {| dt_year := 2021; dt_month := 11; dt_day := 15; dt_hour := 11; dt_minute := 12; dt_second := 13 |}.
Definition reread (p : parsed_project) : res unit (res parse_error parsed_project) :=
  let* (a, b, c, d, e, f) := data_files p in
  Ok (parse_from true (fun _ => true) {| rp_project := a; rp_file := b; rp_library := c; rp_resource := d; rp_view := e; rp_logic := f; rp_resource_files := None |}).
Example C50_example :
  typed_parsed (ex_parsed 1636974733 (Some ex_files)) ex_date /\ distinct_files ex_files /\
  readable_parsed (fun _ => true) (ex_parsed 1636974733 (Some ex_files)) ex_date /\
  reread (ex_parsed 1636974733 None) = Ok (Ok (ex_parsed 1636974733 None)) /\
  (* eleven hours earlier *)
  reread (ex_parsed 1636938733 None) = Ok Panic.
Proof.
  destruct C25_example as (D & R & _). destruct C20_example as (V & S & _). split; [|split; [|split; [|split]]].
  - split; [exact R|]. split; [exact D|]. split; [|split; [|split; [exact V|exact C22_typed]]].
    + intros x [<-|[<-|[<-|[<-|[]]]]]; vm_compute; reflexivity.
    + constructor; [vm_compute; reflexivity|constructor].
  - split; [|split]; repeat constructor. intros [].
  - split; [unfold date_kept, two_digits; cbn; lia|]. split; [left; discriminate|]. split; [exact S|]. split; [|split].
    + constructor; [|constructor; [|constructor]]; left; discriminate.
    + exists [ex_screen (lit "B") ex_con; ex_screen (lit "A") ex_con], []. split; [reflexivity|]. split; [|constructor]. constructor; [|constructor; [|constructor]]; discriminate.
    + intros f [= <-]. split; [|split; [|split]]; cbn [ex_files rf_custom_icon rf_images rf_sounds rf_fonts].
      * intros w [= <-]. exists (lit "icon.png"). apply (wc_path _ _ [] (lit "icons") (Normal (lit "601"))); [reflexivity|vm_compute; reflexivity|discriminate|cbn; auto].
      * intros n w G. apply sget_some_in in G. destruct G as [[= <- <-]|[]]. constructor.
      * discriminate.
      * discriminate.
  - vm_compute. reflexivity.
  - vm_compute. reflexivity.
Qed.
