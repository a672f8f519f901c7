(** C108: a project that was opened can be saved, and when it can be opened again as it was (/repo/src/parser/mod.rs L153-240). C50 starts from a
    project whose parts are in the range of their types; here the project is whatever six texts and a list of resource files were read as, and
    nothing is asked of the texts. *)
From Verif Require Import Base Str Flt M_Color M_Date M_Raw M_Project M_File M_Library M_Resource M_View M_Logic M_Parsed SpecReread
  ResFilesProofs RereadProofs LogicRereadProofs P_Files P_Project P_View P_Logic P_Parsed P_Reread.
From Coq Require Import Lia Permutation.

(** resource files that were read are filed where reading files them, each name once *)
Lemma files_read ex ws f : res_files_try_from ex ws = Ok f -> well_filed ex f /\ distinct_files f.
Proof.
  intros H. apply collect_filed in H as (A & B & C). split.
  - split; [|split; [|split]].
    + intros w W. apply B in W as (a & b & _ & K & _). exact K.
    + intros n w W. apply (A RImage) in W as (a & b & _ & K & _); [exact K|discriminate].
    + intros n w W. apply (A RSound) in W as (a & b & _ & K & _); [exact K|discriminate].
    + intros n w W. apply (A RFont) in W as (a & b & _ & K & _); [exact K|discriminate].
  - split; [exact (C RImage)|]. split; [exact (C RSound)|exact (C RFont)].
Qed.
Lemma parsed_filed mv ex r p : parse_from mv ex r = Ok p -> forall f, pp_resource_files p = Some f -> well_filed ex f /\ distinct_files f.
Proof.
  intros H f F. apply parse_from_ok in H as (_ & _ & _ & _ & _ & _ & H). destruct (rp_resource_files r) as [ws|]; [|congruence].
  destruct H as (g & G & E). rewrite E in F. injection F as <-. now apply (files_read ex ws).
Qed.

(** What is asked of an opened project, in its own terms. The positions and weights of its views are finite numbers *)
Definition views_finite (v : view) : Prop :=
  (forall n l x, In (n, l) (vw_layouts v) -> In x l -> finite_floats x) /\ (forall n x, In (n, x) (vw_fabs v) -> finite_floats x).
Lemma views_finite_iff v : views_finite v <-> file_finite v.
Proof.
  unfold views_finite, file_finite. rewrite !Forall_forall. split; intros [A B]; (split; [|intros; try apply (B (n, x)); auto]).
  - intros [n l] I. apply Forall_forall. intros x. now apply (A n).
  - destruct x as [n x]. now apply (B n).
  - intros n l x I J. specialize (A _ I). rewrite Forall_forall in A. now apply A.
Qed.

(** a parsed project is written if its date is one that chrono has *)
Lemma date_written p dt : in_range (pp_project p) -> datetime_of_timestamp (i64_of_u64 (pj_date_created (pp_project p))) = Some dt -> exists r, into_raw p r.
Proof.
  intros R D. pose proof (project_back _ R) as P. rewrite D in P. destruct P as (s & E & _).
  exists {| rp_project := s; rp_file := file_reconstruct (pp_file p); rp_library := library_reconstruct (pp_library p); rp_resource := resource_reconstruct (pp_resource p);
            rp_view := view_reconstruct (pp_view p); rp_logic := logic_reconstruct (pp_logic p);
            rp_resource_files := match pp_resource_files p with
              | None => None
              | Some f => Some ((match rf_custom_icon f with Some w => [w] | None => [] end) ++ map snd (rf_images f) ++ map snd (rf_sounds f) ++ map snd (rf_fonts f))
              end |}.
  split; [cbn; unfold data_files; rewrite E; reflexivity|]. cbn. destruct (pp_resource_files p) as [f|]; [|reflexivity].
  eexists. split; [reflexivity|]. exists (map snd (rf_images f)), (map snd (rf_sounds f)), (map snd (rf_fonts f)). auto.
Qed.
(** An opened project can always be saved. *)
Theorem C108_saved mv ex r p : parse_from mv ex r = Ok p -> exists r', into_raw p r'.
Proof. intros H. apply parse_from_ok in H as (H & _). apply project_read in H as (R & dt & D). now apply (date_written p dt). Qed.
Print Assumptions C108_saved.

(** It has a date of creation, and if the names in its logic are plain it is opened again as it was exactly if that date survives, there is an
    activity or no custom view, the view file can be told apart and is finite, and the screens with code come first. The resource files never
    stand in the way, in whichever order they are written. *)
Theorem C108_exact mv ex r p : parse_from mv ex r = Ok p -> Forall (fun kv => screen_plain (snd kv)) (pp_logic p) ->
  exists dt, datetime_of_timestamp (i64_of_u64 (pj_date_created (pp_project p))) = Some dt /\
  forall r', into_raw p r' ->
    ((exists p', parse_from mv ex r' = Ok p' /\ same_parsed p p') <->
     date_kept dt /\ (f_activities (pp_file p) <> [] \/ f_custom_views (pp_file p) = []) /\ views_finite (pp_view p) /\ separable_view (pp_view p) /\
     containers_first (pp_logic p)).
Proof.
  intros H P. pose proof (parsed_filed _ _ _ _ H) as F. apply parse_from_ok in H as (H1 & H2 & H3 & H4 & H5 & H6 & _).
  apply project_read in H1 as (R & dt & D). exists dt. split; [exact D|]. intros r' I.
  destruct (logic_file_read _ _ _ H6) as [L1 L2].
  assert (T : views_finite (pp_view p) -> typed_parsed p dt).
  { intros FV. split; [exact R|]. split; [exact D|]. split; [|split; [|split]].
    - intros x X. pose proof (library_range _ _ H3) as K. destruct X as [<-|[<-|[<-|[<-|[]]]]]; [apply (K LFirebase)|apply (K LCompat)|apply (K LAdmob)|apply (K LGoogleMap)].
    - exact (resource_range _ _ H4).
    - apply file_typed; [now apply (view_file_read (rp_view r))|now apply views_finite_iff].
    - split; [exact L1|]. rewrite Forall_forall in *. intros kv K. destruct (L2 kv K) as (A & B & _). split; [exact A|]. apply screen_read_typed; [exact B|now apply P]. }
  assert (N0 : nonempty_screens (pp_logic p)).
  { unfold nonempty_screens. apply Forall_map. eapply Forall_impl; [|exact L2]. intros kv (_ & _ & A). exact A. }
  assert (X : views_finite (pp_view p) -> (exists p', parse_from mv ex r' = Ok p' /\ same_parsed p p') <-> readable_parsed ex p dt).
  { intros FV. apply C50_exact; auto. intros f E. now apply F. }
  split.
  - intros (p' & K & S0). assert (FV : views_finite (pp_view p)).
    { pose proof K as K'. apply parse_from_ok in K' as (_ & _ & _ & _ & K5 & _). destruct S0 as (_ & _ & _ & _ & S5 & _). rewrite S5 in K5.
      destruct I as [DA _]. unfold data_files in DA. destruct (project_reconstruct (pp_project p)); try discriminate. cbn [bind] in DA. injection DA as _ _ _ _ D5 _.
      rewrite <- D5 in K5. apply views_finite_iff. now apply (view_file_reread _ _ H5) in K5. }
    destruct (proj1 (X FV) (ex_intro _ p' (conj K S0))) as (A & B & C & _ & E & _). auto.
  - intros (A & B & FV & C & E). apply (X FV). split; [exact A|]. split; [exact B|]. split; [exact C|]. split; [exact N0|]. split; [exact E|]. intros f G. now apply F.
Qed.
Print Assumptions C108_exact.
(** If moreover every screen has code and variables, the project comes back with its screens in order, and saving it once more writes the same six
    texts: the files have settled. *)
Theorem C108_settled mv ex r p dt r' : parse_from mv ex r = Ok p -> Forall (fun kv => screen_plain (snd kv)) (pp_logic p) ->
  datetime_of_timestamp (i64_of_u64 (pj_date_created (pp_project p))) = Some dt -> date_kept dt ->
  (f_activities (pp_file p) <> [] \/ f_custom_views (pp_file p) = []) -> views_finite (pp_view p) -> separable_view (pp_view p) ->
  Forall (fun kv => sl_block_containers (snd kv) <> [] /\ sl_variables (snd kv) <> None) (pp_logic p) -> into_raw p r' ->
  exists p', parse_from mv ex r' = Ok p' /\ same_parsed p p' /\ pp_logic p' = pp_logic p /\
    forall r'', into_raw p' r'' ->
      rp_project r'' = rp_project r' /\ rp_file r'' = rp_file r' /\ rp_library r'' = rp_library r' /\ rp_resource r'' = rp_resource r' /\
      rp_view r'' = rp_view r' /\ rp_logic r'' = rp_logic r'.
Proof.
  intros H P D A B C E G I. destruct (C108_exact _ _ _ _ H P) as (dt' & D' & X). rewrite D in D'. injection D' as <-. specialize (X r' I).
  assert (CF : containers_first (pp_logic p)).
  { exists (pp_logic p), []. split; [symmetry; apply app_nil_r|]. split; [|constructor]. eapply Forall_impl; [|exact G]. cbn. tauto. }
  destruct (proj2 X) as (p' & K & S0); [auto|]. exists p'. split; [exact K|]. split; [exact S0|].
  assert (L : pp_logic p' = pp_logic p).
  { apply parse_from_ok in K as (_ & _ & _ & _ & _ & K & _). apply parse_from_ok in H as (_ & _ & _ & _ & _ & H & _).
    destruct I as [DA _]. unfold data_files in DA. destruct (project_reconstruct (pp_project p)); try discriminate. cbn [bind] in DA. injection DA as _ _ _ _ _ D6. rewrite <- D6 in K.
    destruct (logic_file_read _ _ _ H) as [L1 L2].
    assert (T : logic_typed (pp_logic p)).
    { split; [exact L1|]. rewrite Forall_forall in *. intros kv Q. destruct (L2 kv Q) as (Q1 & Q2 & _). split; [exact Q1|]. apply screen_read_typed; [exact Q2|now apply P]. }
    destruct (C22_order _ T) as [O1 O2]; [eapply Forall_impl; [|exact G]; cbn; tauto|].
    destruct mv; [congruence|]. rewrite O2 in K; [congruence|]. eapply Forall_impl; [|exact G]; cbn; tauto. }
  split; [exact L|]. intros r'' J. destruct S0 as (S1 & S2 & S3 & S4 & S5 & _). destruct I as [I _], J as [J _]. unfold data_files in I, J. rewrite S1, S2, S3, S4, S5, L in J.
  rewrite I in J. injection J as -> -> -> -> -> ->. auto 10.
Qed.
Print Assumptions C108_settled.

(** six texts, some of which are not what would be written for them: the logic and resource files are those of C107. The first has an activity,
    the second only a custom view: both are opened, but only the first is opened again once saved *)
Definition raw108 (f : str) : raw_project :=
  {| rp_project := match project_reconstruct (ex_project 1636974733) with Ok s => s | _ => [] end; rp_file := f;
     rp_library := library_reconstruct ex_library; rp_resource := resource107; rp_view := view_reconstruct ex_view; rp_logic := logic107;
     rp_resource_files := Some [WU32Id 3 (lit "x.png") RImage; WPath (lit "icons/601/icon.png"); WU32Id 4 (lit "x.png") RImage] |}.
Definition both108 : str := lit "@activity" ++ [NL] ++ file_item_reconstruct ex_file_item ++ [NL] ++ lit "@customview" ++ [NL].
Definition only108 : str := lit "@activity" ++ [NL] ++ lit "@customview" ++ [NL] ++ file_item_reconstruct ex_file_item.
Definition opened108 (f : file) : parsed_project :=
  {| pp_project := ex_project 1636974733; pp_file := f; pp_library := ex_library;
     pp_resource := match resource_parse resource107 with Ok x => x | _ => {| rs_images := []; rs_sounds := []; rs_fonts := [] |} end;
     pp_view := ex_view; pp_logic := read107;
     pp_resource_files := Some {| rf_custom_icon := Some (WPath (lit "icons/601/icon.png")); rf_images := [(lit "x.png", WU32Id 4 (lit "x.png") RImage)]; rf_sounds := []; rf_fonts := [] |} |}.
Definition both108_file : file := {| f_activities := [ex_file_item]; f_custom_views := [] |}.
Definition only108_file : file := {| f_activities := []; f_custom_views := [ex_file_item] |}.
Example C108_example :
  (parse_from true (fun _ => true) (raw108 both108) = Ok (opened108 both108_file) /\
   forall r', into_raw (opened108 both108_file) r' -> exists p', parse_from true (fun _ => true) r' = Ok p' /\ same_parsed (opened108 both108_file) p') /\
  (parse_from true (fun _ => true) (raw108 only108) = Ok (opened108 only108_file) /\
   forall r', into_raw (opened108 only108_file) r' -> ~ exists p', parse_from true (fun _ => true) r' = Ok p' /\ same_parsed (opened108 only108_file) p').
Proof.
  destruct C25_example as (D & _ & PB & _). destruct C20_example as (V & S0 & VB & _). destruct C107_example as (_ & _ & (LB & PL & CF & _) & _).
  destruct (project_reconstruct (ex_project 1636974733)) as [s| |] eqn:PR; cbn [bind] in PB; try discriminate PB.
  assert (O : forall t f, file_parse t = Ok f -> parse_from true (fun _ => true) (raw108 t) = Ok (opened108 f)).
  { intros t f F. apply parse_from_ok. unfold raw108, opened108. rewrite PR. cbn [rp_project rp_file rp_library rp_resource rp_view rp_logic rp_resource_files pp_project pp_file pp_library pp_resource pp_view pp_logic pp_resource_files].
    split; [exact PB|]. split; [exact F|]. split; [exact C17_example|]. split; [vm_compute; reflexivity|]. split; [exact VB|]. split; [exact LB|]. eexists. split; [vm_compute; reflexivity|reflexivity]. }
  pose proof (O both108 both108_file ltac:(vm_compute; reflexivity)) as H1. pose proof (O only108 only108_file ltac:(vm_compute; reflexivity)) as H2.
  split; (split; [assumption|]).
  - destruct (C108_exact _ _ _ _ H1 PL) as (dt & D' & X). change (datetime_of_timestamp 1636974733 = Some dt) in D'.
    rewrite D in D'. injection D' as <-. intros r' I. apply (X r' I). split; [unfold date_kept, two_digits; cbn; lia|]. split; [left; discriminate|].
    split; [|split; [exact S0|exact CF]]. apply views_finite_iff. now apply (view_file_reread (view_reconstruct ex_view) ex_view).
  - destruct (C108_exact _ _ _ _ H2 PL) as (dt & _ & X). intros r' I K. apply (X r' I) in K as (_ & [K|K] & _); [now apply K|discriminate].
Qed.
