(** The claims that do not hold, each denied as it is claimed. The property files say of these what does hold
    (theorems named [_partial], [_exact], [_lost], ...) and of which inputs it does not (other theorems named
    [_refuted]); here the claim of the property, for all inputs that the types and formats allow, is refuted by one
    concrete input each. *)
From Coq Require Import Lia Permutation.
From Verif Require Import Base Str Flt Json Utf8 Crypto M_Color M_Date M_Raw M_Project M_File M_Library M_Resource M_View M_Logic M_Parsed A_Block A_View A_Screen A_Project
  Spec SpecBlock SpecView SpecScreen SpecProject SpecLoad SpecSave ViewTreeProofs ScreenProofs ApiProjectProofs ResFilesProofs DateProofs ProjectProofs ViewFileProofs SpecLines SpecReading
  P_Crypto P_Files P_Project P_View P_Logic P_Panic P_Block P_Parsed P_ApiView P_Screen P_Resources P_ApiProject P_Loading P_Reading P_Save.

(** C05: a file encrypted in place holds the old or the new content at every point of interruption *)
Theorem C05_claim_refuted : ~ (forall f file plain g, f file = Some plain -> bytes plain -> encrypt_sw_file_to_file_crash f file None g ->
  g file = Some plain \/ g file = Some (encrypt_sw plain)).
Proof.
  intros H. destruct (C05_in_place_refuted (fun _ => Some (lit "data")) (lit "a") (lit "data") eq_refl) as (g & d & K & G & N1 & N2).
  - repeat constructor; lia.
  - discriminate.
  - destruct (H (fun _ => Some (lit "data")) (lit "a") (lit "data") g eq_refl) as [E|E]; [repeat constructor; lia|exact K|congruence..].
Qed.
Print Assumptions C05_claim_refuted.

(** C16: a [file] data file comes back *)
Theorem C16_claim_refuted : ~ (forall f, file_parse (file_reconstruct f) = Ok f).
Proof.
  intros H. refine (proj2 (C16_refuted {| f_activities := []; f_custom_views := [ex_file_item] |} eq_refl _) (H _)). discriminate.
Qed.
Print Assumptions C16_claim_refuted.

(** C20: a [view] data file comes back *)
Definition two_layouts : view := {| vw_layouts := [(lit "a", [ex_av2]); (lit "main", [ex_av2])]; vw_fabs := [] |}.
Lemma two_layouts_typed : view_typed two_layouts.
Proof.
  destruct C20_example as ((L & _ & NL & _) & _). unfold view_typed, two_layouts. cbn [ex_view vw_layouts vw_fabs map fst snd] in *.
  split; [|split; [|split]]; [|constructor|exact NL|constructor].
  apply Forall_inv in L as LA. apply Forall_inv_tail, Forall_inv in L as LM. cbn [fst snd] in *. constructor; [|constructor; [exact LM|constructor]].
  cbn [fst snd]. intuition.
Qed.
Theorem C20_claim_refuted : ~ (forall v, view_typed v -> view_parse (view_reconstruct v) = Ok v).
Proof.
  intros H. pose proof (H _ two_layouts_typed) as K. destruct (C20_two_layouts_refuted _ [] _ _ _ _ [] two_layouts_typed eq_refl) as (e & E); [discriminate|congruence].
Qed.
Print Assumptions C20_claim_refuted.

(** C22: a [logic] data file comes back, in whatever order the screens are *)
Lemma two_screens_typed : logic_typed [ex_screen (lit "B") []; ex_screen (lit "A") ex_con].
Proof.
  destruct C22_typed as (ND & T). split; [exact ND|]. apply Forall_inv in T as TB. apply Forall_inv_tail, Forall_inv in T as TA.
  constructor; [|constructor; [exact TA|constructor]].
  destruct TB as (E & S). split; [exact E|]. destruct S as (S1 & S2 & S3 & S4 & S5 & S6 & _). cbn [ex_screen snd sl_name sl_block_containers] in *.
  unfold screen_typed. cbn [ex_screen snd sl_block_containers].
  do 6 (split; [assumption|]). split; [constructor|]. split; [constructor|]. intros r c a w X. destruct r; discriminate X.
Qed.
Theorem C22_claim_refuted mv : ~ (forall l, logic_typed l -> exists r, logic_parse mv (logic_reconstruct l) = Ok r /\ Permutation r l).
Proof.
  intros H. destruct (H _ two_screens_typed) as (r & E & P). destruct (C22_exact mv _ two_screens_typed) as (r' & E' & X).
  rewrite E in E'. injection E' as <-. apply X in P as (_ & a & b & Eab & A & B).
  destruct a as [|x a].
  - cbn in Eab. subst b. apply Forall_inv_tail, Forall_inv in B. discriminate B.
  - apply Forall_inv in A. cbn in Eab. injection Eab as <- _. now apply A.
Qed.
Print Assumptions C22_claim_refuted.

(** C24: reading a logic file or a project file and converting blocks does not panic *)
Theorem C24_claim_refuted mv :
  ~ (forall s, logic_parse mv s <> Panic) /\ ~ (forall s, project_parse s <> Panic) /\ ~ (forall c, blocks_try_from c <> Panic).
Proof.
  split; [|split].
  - intros H. apply (H (lit "@java_var")). destruct mv; vm_compute; reflexivity.
  - intros H. destruct C24_project_refuted as (s & E). exact (H s E).
  - intros H. exact (H _ (proj1 C24_blocks_example)).
Qed.
Print Assumptions C24_claim_refuted.

(** C25: the creation date of a project is kept *)
Theorem C25_claim_refuted : ~ (forall p dt, in_range p -> datetime_of_timestamp (i64_of_u64 (pj_date_created p)) = Some dt -> (1000 <= dt_year dt <= 9999)%Z ->
  exists s q, project_reconstruct p = Ok s /\ project_parse s = Ok q /\ pj_date_created q = pj_date_created p).
Proof.
  intros H. destruct C25_example as (_ & _ & _ & D & _).
  destruct (H (P_Project.ex_project 1636938733) _ ltac:(vm_compute; tauto) D ltac:(cbn; lia)) as (s & q & E & K & _).
  destruct (C25_refuted (P_Project.ex_project 1636938733) _ ltac:(vm_compute; tauto) D ltac:(cbn; lia)) as (s' & E' & K'); [|congruence].
  unfold two_digits. cbn. lia.
Qed.
Print Assumptions C25_claim_refuted.

(** C35: the type of a block comes back from its text *)
Theorem C35_claim_refuted : ~ (forall t, block_type_from (block_type_to_string t) (match get_typename t with Some n => n | None => [] end) = Ok t).
Proof. intros H. destruct (C35_refuted LiString) as (e & E). rewrite H in E. discriminate E. Qed.
Print Assumptions C35_claim_refuted.

(** C46: an API project comes back from the parsed project that it is turned into *)
Theorem C46_claim_refuted rnd : ~ (forall p, ready_project p -> ready_resources (sp_resources p) ->
  exists q, project_into p = Ok q /\ project_try_from rnd q = Ok p).
Proof.
  intros H. destruct (C46_example true) as (RP & RR & _). destruct (H _ RP RR) as (q & E & K). exact (proj2 (C46_refuted rnd _ _ _ E K) eq_refl).
Qed.
Print Assumptions C46_claim_refuted.

(** C48: no resource is added under an id that is taken *)
Theorem C48_claim_refuted ex : ~ (forall id w t r x, t <> RCustomIcon -> get_resource id r = Some x -> forall r', put_resource ex id w t r <> Ok r').
Proof.
  intros H. destruct (C48_refuted ex (lit "a") (WU32Id 1 (lit "a.mp3") RSound) (WU32Id 2 (lit "b.mp3") RSound)) as (r1 & _ & G & (r2 & P & _) & _).
  - intros (p & E & _); discriminate E.
  - intros (p & E & _); discriminate E.
  - exact (H _ _ RSound _ _ ltac:(discriminate) G _ P).
Qed.
Print Assumptions C48_claim_refuted.

(** C50: a parsed project comes back from the data files it is written to, even if its date does *)
Definition parsed_two_layouts : parsed_project :=
  let p := ex_parsed 1636974733 None in
  {| pp_project := pp_project p; pp_file := pp_file p; pp_library := pp_library p; pp_resource := pp_resource p; pp_view := two_layouts; pp_logic := pp_logic p; pp_resource_files := None |}.
Theorem C50_claim_refuted mv ex : ~ (forall p dt r, typed_parsed p dt -> date_kept dt -> into_raw p r -> exists p', parse_from mv ex r = Ok p' /\ same_parsed p p').
Proof.
  intros H. destruct C50_example as ((T1 & T2 & T3 & T4 & _ & T6) & _ & (DK & _) & _).
  assert (T : typed_parsed parsed_two_layouts ex_date) by (repeat (split; [assumption|]); split; [exact two_layouts_typed|exact T6]).
  destruct (C50_written _ _ T) as (r & W). destruct (H _ _ _ T DK W) as (p' & E & _).
  refine (C50_refuted mv ex parsed_two_layouts r [] _ _ _ _ [] two_layouts_typed eq_refl _ W p' E). discriminate.
Qed.
Print Assumptions C50_claim_refuted.

(** C51: the resource files are there after converting back exactly if they were there before *)
Theorem C51_claim_refuted : ~ (forall rnd v p q, project_try_from rnd v = Ok p -> project_into p = Ok q -> (pp_resource_files v = None <-> pp_resource_files q = None)).
Proof.
  intros H. pose proof (proj1 (proj2 C51_example)) as E. unfold there_and_back in E.
  destruct (project_try_from rnd0 (parsed0 None [])) as [p| |] eqn:K; try discriminate E. cbn [bind] in E. destruct (project_into p) as [q| |] eqn:F; try discriminate E.
  pose proof (proj1 (H _ _ _ _ K F) eq_refl) as G. cbn in E. rewrite G in E. discriminate E.
Qed.
Print Assumptions C51_claim_refuted.

(** C52: a variable that is added to every screen is there after converting there and back *)
Lemma add_and_reload_steps {B} (f : sw_project -> B) v y : rmap f (add_and_reload v) = Ok y ->
  exists p q p', project_try_from rnd0 v = Ok p /\ project_into (with_screens p (map add_variable (sp_screens p))) = Ok q /\ project_try_from rnd0 q = Ok p' /\ f p' = y.
Proof.
  intros E. unfold add_and_reload in E. destruct (project_try_from rnd0 v) as [p| |] eqn:K; try discriminate E. cbn [bind] in E.
  destruct (project_into (with_screens p (map add_variable (sp_screens p)))) as [q| |] eqn:F; try discriminate E.
  destruct (project_try_from rnd0 q) as [p'| |] eqn:G; try discriminate E. cbn [rmap] in E. injection E as <-. eauto 10.
Qed.
Lemma second_empty (l : list screen) n1 v1 n2 : map (fun s => (sc_layout_name s, map fst (sc_variables s))) l = [(n1, v1); (n2, [])] ->
  ~ Forall (fun s => sget (lit "n") (sc_variables s) <> None) l.
Proof.
  intros E X. destruct l as [|s1 [|s2 l]]; try discriminate E. cbn [map] in E. injection E as _ _ _ V _. apply Forall_inv_tail, Forall_inv in X.
  destruct (sc_variables s2); [now apply X|discriminate V].
Qed.
Theorem C52_claim_refuted : ~ (forall rnd v p q p', project_try_from rnd v = Ok p -> project_into (with_screens p (map add_variable (sp_screens p))) = Ok q ->
  project_try_from rnd q = Ok p' -> Forall (fun s => sget (lit "n") (sc_variables s) <> None) (sp_screens p')).
Proof.
  intros H. destruct (add_and_reload_steps _ _ _ (proj1 C52_example)) as (p & q & p' & K & F & G & E).
  exact (second_empty _ _ _ _ E (H _ _ _ _ _ K F G)).
Qed.
Print Assumptions C52_claim_refuted.

(** C64: the number in an error is that of the line that cannot be read, counted from 0 or from 1, and the content is that line *)
Theorem C64_claim_refuted :
  ~ (forall s h n, library_parse s = Err (LibraryItemParseError h n) -> exists b l, (b <= 1)%nat /\ nth_error (split_on NL s) (N.to_nat n - b) = Some l /\
       library_item_parse l = None /\ ~ In l lib_headers) /\
  ~ (forall s name n c, view_parse s = Err (VFabParseError name n c) -> exists b, (b <= 1)%nat /\ nth_error (split_on NL s) (N.to_nat n - b) = Some c) /\
  ~ (forall s name n src, logic_parse true s = Err (LVariablePool name n src) -> exists b, (b <= 1)%nat /\ nth_error (split_on NL s) (N.to_nat n - b) = Some (pe_content src)).
Proof.
  destruct C64_example as (E1 & E2). split; [|split].
  - intros H. destruct (H _ _ _ E1) as (b & l & B & E & L & N). assert (b = 0 \/ b = 1)%nat as [-> | ->] by lia; vm_compute in E; injection E as <-.
    + vm_compute in L. discriminate L.
    + apply N. vm_compute. tauto.
  - intros H. destruct (H _ _ _ _ E2) as (b & B & E). assert (b = 0 \/ b = 1)%nat as [-> | ->] by lia; vm_compute in E; discriminate E.
  - intros H. destruct (H (join_lines (map lit ["@A.java_var"; "0:x"; ""; "@B.java_var"; "oops"]%string)) (lit "B") 1
      {| pe_count := 0; pe_content := lit "oops"; pe_source := MalformedVariable (lit "oops") |}) as (b & B & E); [vm_compute; reflexivity|].
    assert (b = 0 \/ b = 1)%nat as [-> | ->] by lia; vm_compute in E; discriminate E.
Qed.
Print Assumptions C64_claim_refuted.

(** C85: an API project is the same after saving and loading *)
Theorem C85_claim_refuted mv ex rnd : ~ (forall p dt r, ready_project p -> ready_resources (sp_resources p) -> sp_automatic p = false -> project_fits p dt -> date_kept dt ->
  project_into_raw p r -> exists p', loaded mv ex rnd r p' /\ comes_back p p').
Proof.
  intros H. pose (p := project85_screens [screen85; screen46]).
  destruct (C85_code_example mv ex rnd {| rp_project := []; rp_file := []; rp_library := []; rp_resource := []; rp_view := []; rp_logic := []; rp_resource_files := None |}) as (RP & RR & PF & _).
  destruct (C86_outcome mv ex rnd p ex_date RP RR eq_refl PF) as ((r & W) & _).
  destruct (C85_code_example mv ex rnd r) as (_ & _ & _ & N & _). apply (N W). apply (H p ex_date r RP RR eq_refl PF); [|exact W].
  unfold date_kept, two_digits. cbn. lia.
Qed.
Print Assumptions C85_claim_refuted.
