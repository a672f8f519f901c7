(** Property C100: a project that is saved and loaded any number of times
    (/repo/src/api/mod.rs L303-450, L487-675 and L766-785, /repo/src/api/view.rs L516-587, /repo/src/parser/mod.rs L153-240). *)
From Coq Require Import Lia.
From Verif Require Import Base Str Flt M_Color M_Date M_Raw M_View M_Logic M_Parsed A_Block A_View A_Screen A_Project
  SpecBlock SpecView SpecScreen SpecProject SpecSave SpecTwice ViewTreeProofs ViewFlatProofs TwiceProofs P_Parsed P_ApiView P_ApiProject P_Save.

(** * C100 *)
(** The lines that are written for a layout: what is read from them is written differently at most once more. *)
Theorem C100_layout F : layout_ok F -> exists F1 F2,
  parse_raw_layout (flatten_views F None None) = Ok F1 /\ parse_raw_layout (flatten_views F1 None None) = Ok F2 /\
  parse_raw_layout (flatten_views F2 None None) = Ok F2 /\ same_layout F F1 /\ same_layout F F2.
Proof.
  intros L. exists (relaid F), (relaid (relaid F)). split; [now apply relaid_reads|]. split; [now apply relaid_reads, relaid_ok|].
  split; [rewrite relaid_reads by (now apply relaid_ok, relaid_ok); now rewrite relaid_settles|]. split; [now apply relaid_same|apply relaid_twice].
Qed.
Print Assumptions C100_layout.
(** A ready project without resources can be converted any number of times, with one result. *)
Theorem C100_goes_on n p : ready_project p -> sp_resources p = resources_empty -> exists p', forall x, times converted n p x <-> x = p'.
Proof. intros RP RE. exists (reprojects n p). intros x. now apply bare_times. Qed.
Print Assumptions C100_goes_on.
(** It is the same however often that is, but for the flag, which is turned round every time, and the icon, which is gone
    after the second time at the latest. *)
Theorem C100_kept n p p' : ready_project p -> sp_resources p = resources_empty -> times converted (S n) p p' ->
  same_project p p' /\ sp_resources p' = resources_empty /\ sp_automatic p' = (if Nat.even n then negb (sp_automatic p) else sp_automatic p) /\
  sp_custom_icon p' = match n with O => if sp_automatic p then sp_custom_icon p else None | S _ => None end.
Proof.
  intros RP RE T. apply bare_times in T; auto. subst p'. split; [now apply reprojects_same|]. split; [now apply reprojects_bare|]. split.
  - rewrite reprojects_flag, Nat.even_succ, <- Nat.negb_even. now destruct (Nat.even n).
  - destruct n as [|n]; [reflexivity|]. apply reprojects_icon.
Qed.
Print Assumptions C100_kept.
(** From the second time on nothing else changes, down to the fields that are only reachable through [raw]. *)
Theorem C100_settles n p p2 p' : ready_project p -> sp_resources p = resources_empty -> times converted 2 p p2 -> times converted n p2 p' ->
  p' = if Nat.even n then p2 else turned p2.
Proof.
  intros RP RE T2 T. apply bare_times in T2; auto. cbn [reprojects] in T2. subst p2. apply bare_times in T; [|now apply ready_reproject, ready_reproject|exact RE].
  subst p'. apply reprojects_two.
Qed.
Print Assumptions C100_settles.
(** The same through the six files, whatever the order in which the maps are written. *)
Theorem C100_files mv ex n p dt : ready_project p -> sp_resources p = resources_empty -> project_fits p dt -> told_apart p dt -> icon_filed ex p ->
  forall p', times (refiled mv ex) n p p' <-> times converted n p p'.
Proof. intros RP RE PF TA IC p'. rewrite (bare_refiled_times mv ex n p dt p' RP RE PF TA IC). symmetry. now apply bare_times. Qed.
Print Assumptions C100_files.
(** With resources it can be done once: what is loaded can be written, but not loaded again. *)
Theorem C100_resources p : ready_project p -> ready_resources (sp_resources p) -> sp_resources p <> resources_empty ->
  (sp_automatic p = true -> forall p1, ~ converted p p1) /\
  (sp_automatic p = false -> (exists p1, converted p p1) /\
     forall p1, converted p p1 -> same_project p p1 /\
       forall rnd, exists q1 id n t, project_into p1 = Ok q1 /\ project_try_from rnd q1 = Err (XMissingResourceFile id n t)).
Proof.
  intros RP RR NE. split.
  - intros A p1 (rnd & q & H & K). destruct (C46_partial rnd p RP RR) as (q' & H' & _ & _ & B). rewrite H in H'. injection H' as <-.
    destruct (B A NE) as (id & n & t & E). congruence.
  - intros A. split.
    + destruct (C46_partial (fun _ _ => 0) p RP RR) as (q & H & B & _). destruct (B A) as (p1 & K & _). exists p1, (fun _ _ => 0), q. auto.
    + intros p1 (rnd & q & H & K). split; [apply (numbered_converted rnd p q p1 RP RR A H K)|]. intros rnd'. exact (numbered_stuck rnd rnd' p q p1 RP RR A NE H K).
Qed.
Print Assumptions C100_resources.
Theorem C100_resource_files mv ex p dt : ready_project p -> ready_resources (sp_resources p) -> sp_resources p <> resources_empty -> sp_automatic p = false ->
  project_fits p dt -> told_apart p dt ->
  (exists p1, refiled mv ex p p1) /\ forall p1 p2, refiled mv ex p p1 -> ~ refiled mv ex p1 p2.
Proof.
  intros RP RR NE A PF TA. split.
  - destruct (C85_partial mv ex (fun _ _ => 0) p dt RP RR A PF TA) as ((r & W) & L). destruct (L r W) as (p1 & L1 & _). exists p1, (fun _ _ => 0), r. auto.
  - intros p1 p2 (rnd & r & W & L) (rnd' & r1 & W1 & v & P & K).
    destruct (numbered_files_stuck mv ex rnd rnd' p dt r p1 r1 RP RR A NE PF TA W L W1) as (v' & id & n & ty & P' & K'). rewrite P in P'. injection P' as <-. congruence.
Qed.
Print Assumptions C100_resource_files.

(** A linear layout that is said to be a scroll view: its child is written as that of a scroll view first, then as that of a
    linear layout, and this is how it stays. *)
Definition wrong_type (n : vattrs) : vattrs :=
  {| vn_id := vn_id n; vn_background_color := vn_background_color n; vn_height := vn_height n; vn_width := vn_width n; vn_padding := vn_padding n; vn_margin := vn_margin n;
     vn_weight := vn_weight n; vn_weight_sum := vn_weight_sum n; vn_layout_gravity := vn_layout_gravity n; vn_view := inl (VScrollView LoVertical 0); vn_raw := vn_raw n |}.
Definition forest100 : list aview := [VNode (wrong_type (attrs_of (mk "linear1" 0 "root" 0))) [leafv "text1" 4]].
Definition reread (F : list aview) : list aview := match parse_raw_layout (flatten_views F None None) with Ok F' => F' | _ => [] end.
Definition parent_types (F : list aview) : list Z := map (fun n => av_parent_type (vn_raw n)) (flat_map nodes F).
Example C100_layout_example : layout_ok forest100 /\ parent_types (reread forest100) = [0; 2]%Z /\ parent_types (reread (reread forest100)) = [0; 0]%Z /\
  parent_types (reread (reread (reread forest100))) = [0; 0]%Z.
Proof.
  split; [split; [repeat constructor; cbn; intuition discriminate|vm_compute; intuition discriminate]|]. split; [vm_compute; reflexivity|]. split; vm_compute; reflexivity.
Qed.
(** the project of C85 with and without its image *)
Definition bare85 : sw_project :=
  let p := project85 [] in
  {| sp_custom_icon := sp_custom_icon p; sp_metadata := sp_metadata p; sp_colors := sp_colors p; sp_screens := sp_screens p; sp_custom_views := sp_custom_views p;
     sp_libraries := sp_libraries p; sp_resources := resources_empty; sp_automatic := false |}.
Example C100_example mv ex :
  (ready_project bare85 /\ project_fits bare85 ex_date /\ told_apart bare85 ex_date /\ icon_filed ex bare85 /\ exists p', times (refiled mv ex) 5 bare85 p' /\ same_project bare85 p' /\ sp_automatic p' = true) /\
  (exists p1, refiled mv ex (project85 []) p1 /\ forall p2, ~ refiled mv ex p1 p2).
Proof.
  destruct (C85_example [] mv ex (fun _ _ => 0)) as (E & _). destruct (E eq_refl) as (RP & RR & PF & TA). assert (RB : ready_project bare85) by exact RP.
  assert (PB : project_fits bare85 ex_date) by exact PF. assert (TB : told_apart bare85 ex_date) by exact TA. assert (IB : icon_filed ex bare85) by (intros D; discriminate D). split.
  - repeat (split; [assumption|]). destruct (C100_goes_on 5 bare85 RB eq_refl) as (p' & G). pose proof (proj2 (G p') eq_refl) as T. exists p'.
    split; [now apply (C100_files mv ex 5 bare85 ex_date)|]. destruct (C100_kept 4 bare85 p' RB eq_refl T) as (S & _ & A & _). split; [exact S|]. rewrite A. reflexivity.
  - destruct (C100_resource_files mv ex (project85 []) ex_date RP RR ltac:(discriminate) eq_refl PF TA) as ((p1 & L) & N). exists p1. split; [exact L|]. intros p2. now apply N.
Qed.
