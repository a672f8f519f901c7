(** Property C97: texts and names with spaces in blocks and in the specs of moreblocks
    (/repo/src/api/block.rs L147-319, L985-1035, /repo/src/api/mod.rs L487-675). *)
From Coq Require Import Lia.
From Verif Require Import Base Str Flt M_Color M_Date M_Raw M_Project M_File M_Library M_Resource M_View M_Logic M_Parsed A_Block A_View A_Screen A_Project
  SpecBlock SpecView SpecScreen SpecProject SpecLoad SpecSave SpecDate DateTextProofs BlockWriteProofs BackProofs SpreadProofs
  P_Block P_ApiProject P_Loading P_Save P_Back P_Settle SpecBack SpecSettle SpecSpread.

(** ** C97: texts are written as their words *)
(** whatever the tree: it is written like the tree in which every word is a text of its own *)
Theorem C97_written l : blocks_into (map spread l) = blocks_into l.
Proof. apply spread_into. Qed.
Print Assumptions C97_written.
(** so C94 without its condition on spaces *)
Theorem C97_back l c : blocks_into l = Ok c -> 9 + N.of_nat (length c) < 2 ^ 31 -> Forall (fun b => Forall block_loose (read_again b)) l ->
  blocks_try_from c <> Panic /\
  forall l', blocks_try_from c = Ok l' <-> Forall (fun b => Forall block_given (read_again b)) l /\ l' = map (fun b => block_back (spread b)) l.
Proof.
  intros H L P. apply (forall_again _ _ _ plain_spread) in P. rewrite <- spread_into in H. split; [exact (C94_no_panic _ _ H L P)|].
  intros l'. rewrite (C94_back _ _ H L P), (forall_again _ _ _ given_spread), map_map. tauto.
Qed.
Print Assumptions C97_back.
(** the looser condition is that of C94 for the words *)
Theorem C97_condition b : Forall block_plain (read_again (spread b)) <-> Forall block_loose (read_again b).
Proof. pose proof (forall_again _ _ [b] plain_spread) as E. cbn [map] in E. rewrite !Forall_cons_iff in E. split; intros H; apply E; auto. Qed.
Print Assumptions C97_condition.

(** ** Projects *)
Theorem C97_project p : project_into (spread_project p) = project_into p.
Proof. apply spread_project_into. Qed.
Print Assumptions C97_project.
Theorem C97_raw p r : project_into_raw (spread_project p) r <-> project_into_raw p r.
Proof. unfold project_into_raw. now rewrite spread_project_into. Qed.
Print Assumptions C97_raw.
(** so C95 without its condition on spaces, in memory and through the files *)
Theorem C97_memory rnd p : loose_project p -> ready_resources (sp_resources p) -> exists q, project_into p = Ok q /\
  project_try_from rnd q <> Panic /\
  (forall p', project_try_from rnd q = Ok p' -> all_given (sp_screens p)) /\
  (all_given (sp_screens p) -> sp_automatic p = false -> exists p', project_try_from rnd q = Ok p' /\ comes_back (settle (spread_project p)) p').
Proof.
  intros P RR. apply plain_spread_project in P. destruct (C95_memory rnd (spread_project p) P RR) as (q & H & N1 & N2 & N3). rewrite spread_project_into in H. exists q. split; [exact H|]. split; [exact N1|].
  change (sp_screens (spread_project p)) with (map spread_screen (sp_screens p)) in *. rewrite all_given_spread in N3. split.
  - intros p' K. apply all_given_spread. eauto.
  - intros G A. exact (proj1 (N3 G) A).
Qed.
Print Assumptions C97_memory.
Theorem C97_files mv ex rnd p dt : loose_project p -> ready_resources (sp_resources p) -> sp_automatic p = false -> project_fits p dt ->
  (exists r, project_into_raw p r) /\
  forall r, project_into_raw p r ->
    (date_crash (date_text dt) -> parse_from mv ex r = Panic) /\
    (date_wrong (date_text dt) -> parse_from mv ex r = Err (PeProject tt)) /\
    forall t, date_value (date_text dt) t ->
      (~ last_only p -> exists e, parse_from mv ex r = Err (PeView e)) /\
      (last_only p -> exists v, parse_from mv ex r = Ok v /\ project_try_from rnd v <> Panic /\
         (forall p', project_try_from rnd v = Ok p' -> all_given (code_kept (sp_screens p))) /\
         (all_given (code_kept (sp_screens p)) -> exists p', project_try_from rnd v = Ok p' /\ comes_back (settle (remains (created_at t (spread_project p)))) p')).
Proof.
  intros P RR A PF. apply plain_spread_project in P. destruct (C95_files mv ex rnd (spread_project p) dt P RR A (fits_spread p dt PF)) as (W & O).
  assert (LO : last_only (spread_project p) <-> last_only p).
  { unfold last_only, all_layouts, spread_project. cbn [set_screens sp_screens sp_custom_views]. rewrite map_map. change (fun x => sc_layout (spread_screen x)) with sc_layout. tauto. }
  change (sp_screens (spread_project p)) with (map spread_screen (sp_screens p)) in O. rewrite code_kept_spread in O. split.
  - destruct W as (r & W). exists r. now apply C97_raw.
  - intros r R. apply C97_raw in R. destruct (O r R) as (O1 & O2 & O3). split; [exact O1|]. split; [exact O2|]. intros t D. destruct (O3 t D) as (O4 & O5). rewrite LO in O4, O5. split; [exact O4|].
    intros L. destruct (O5 L) as (v & K & N1 & N2 & N3). exists v. split; [exact K|]. split; [exact N1|]. rewrite all_given_spread in N3. split; [|exact N3].
    intros p' X. apply all_given_spread. eauto.
Qed.
Print Assumptions C97_files.

(** ** Examples *)
(** a text of three words and a name with a space: the words come back one by one, the name ends at the space *)
Definition shout97 : ablock := MkBlock None None green (lit "shout") [SText (lit "in capital letters")] (TArgument RString).
Definition say97 (t : string) : ablock :=
  MkBlock None None green (lit "say") [SText (lit t); SParam (ArgString (Some (lit "what to")) (ABlock shout97)); SParam (ArgNumber None (AValue (FZero false)))] TRegular.
Example C97_example :
  let l' := [MkBlock None None green (lit "say")
    [SText (lit "say"); SText (lit "it"); SParam (ArgString (Some (lit "what")) (ABlock (MkBlock None None green (lit "shout") [SText (lit "in"); SText (lit "capital"); SText (lit "letters")] (TArgument RString))));
     SText (lit "to"); SParam (ArgNumber None (AValue (FZero false)))] TRegular] in
  map spread [say97 "say it"] = l' /\ map (fun b => block_back (spread b)) [say97 "say it"] = l' /\
  (exists c, blocks_into [say97 "say it"] = Ok c /\ blocks_into l' = Ok c /\ blocks_try_from c = Ok l') /\
  Forall (fun b => Forall block_loose (read_again b)) [say97 "say it"] /\ ~ Forall (fun b => Forall block_plain (read_again b)) [say97 "say it"].
Proof.
  assert (W : forall ws, forallb (fun w => match w with c :: _ => negb (c =? 37) | [] => true end) ws = true -> words_ok ws).
  { intros ws H. apply Forall_forall. intros w I [r ->]. rewrite forallb_forall in H. specialize (H _ I). discriminate H. }
  cbv zeta. split; [vm_compute; reflexivity|]. split; [vm_compute; reflexivity|]. split; [eexists; split; [vm_compute; reflexivity|split; [vm_compute; reflexivity|vm_compute; reflexivity]]|]. split.
  - constructor; [|constructor]. change (read_again (say97 "say it")) with [say97 "say it"; shout97]. constructor; [|constructor; [|constructor]].
    + constructor; [apply W; vm_compute; reflexivity|]. constructor; [|constructor; [|constructor]].
      * split; [|exact Logic.I]. split; [vm_compute; discriminate|apply W; vm_compute; reflexivity].
      * split; [exact Logic.I|reflexivity].
    + constructor; [apply W; vm_compute; reflexivity|constructor].
  - intros H. apply Forall_inv, Forall_inv, Forall_inv in H. destruct H as [H _]. apply H. vm_compute. auto.
Qed.
(** a text with a word that looks like a parameter takes an argument away: that is outside of the theorems *)
Example C97_percent_example : exists c e, blocks_into [say97 "say %s"] = Ok c /\ blocks_try_from c = Err e.
Proof. eexists. eexists. split; [vm_compute; reflexivity|vm_compute; reflexivity]. Qed.
