(** Property C98: comparing with [==] (the derived [PartialEq] of /repo/src/api and /repo/src/parser/view.rs). *)
From Verif Require Import Base Str Flt Json M_View M_Logic M_Raw M_Project M_Parsed A_Block A_View A_Screen A_Project A_Equal
  SpecBlock SpecScreen SpecProject SpecResave SpecSettle SpecEqual EqualProofs EqualLoadProofs EqualTripProofs P_Block P_Save P_Resave.

(** ** C98: [==] is true exactly if there is no NaN and both sides are the same up to the signs of zeros *)
Theorem C98_view v w : view_same v w <-> view_numbers v /\ positive_view v = positive_view w.
Proof. apply view_norm. Qed.
Print Assumptions C98_view.
Theorem C98_view_file v w : view_file_same v w <-> view_file_numbers v /\ file_positive v = file_positive w.
Proof. apply file_norm. Qed.
Print Assumptions C98_view_file.
Theorem C98_blocks l m : blocks_same l m <-> Forall block_numbers l /\ map positive_block l = map positive_block m.
Proof. apply blocks_norm. Qed.
Print Assumptions C98_blocks.
Theorem C98_layout v w : aview_same v w <-> aview_numbers v /\ positive_aview v = positive_aview w.
Proof. apply aview_norm. Qed.
Print Assumptions C98_layout.
Theorem C98_screen s t : screen_same s t <-> screen_numbers s /\ positive_screen s = positive_screen t.
Proof. apply screen_norm. Qed.
Print Assumptions C98_screen.
Theorem C98_project p q : project_same p q <-> project_numbers p /\ positive_project p = positive_project q.
Proof. apply project_norm. Qed.
Print Assumptions C98_project.
(** So [==] is symmetric and transitive, and a value equals itself exactly if there is no NaN in it. *)
Theorem C98_itself : (forall v, view_same v v <-> view_numbers v) /\ (forall v, view_file_same v v <-> view_file_numbers v) /\
  (forall l, blocks_same l l <-> Forall block_numbers l) /\ (forall v, aview_same v v <-> aview_numbers v) /\
  (forall s, screen_same s s <-> screen_numbers s) /\ (forall p, project_same p p <-> project_numbers p).
Proof.
  split; [exact (norm_refl _ _ _ view_norm)|]. split; [exact (norm_refl _ _ _ file_norm)|]. split; [exact (norm_refl _ _ _ blocks_norm)|]. split; [exact (norm_refl _ _ _ aview_norm)|].
  split; [exact (norm_refl _ _ _ screen_norm)|exact (norm_refl _ _ _ project_norm)].
Qed.
Print Assumptions C98_itself.
Theorem C98_symmetric : (forall v w, view_same v w -> view_same w v) /\ (forall l m, blocks_same l m -> blocks_same m l) /\ (forall v w, aview_same v w -> aview_same w v) /\
  (forall s t, screen_same s t -> screen_same t s) /\ (forall p q, project_same p q -> project_same q p).
Proof.
  split; [exact (norm_sym _ _ _ view_norm positive_view_numbers)|]. split; [exact (norm_sym _ _ _ blocks_norm (fun l => forall_positive' _ _ l positive_block_numbers))|].
  split; [exact (norm_sym _ _ _ aview_norm positive_aview_numbers)|]. split; [exact (norm_sym _ _ _ screen_norm positive_screen_numbers)|exact (norm_sym _ _ _ project_norm positive_project_numbers)].
Qed.
Print Assumptions C98_symmetric.
Theorem C98_transitive : (forall v w x, view_same v w -> view_same w x -> view_same v x) /\ (forall l m n, blocks_same l m -> blocks_same m n -> blocks_same l n) /\
  (forall v w x, aview_same v w -> aview_same w x -> aview_same v x) /\ (forall s t u, screen_same s t -> screen_same t u -> screen_same s u) /\
  (forall p q r, project_same p q -> project_same q r -> project_same p r).
Proof.
  split; [exact (norm_trans _ _ _ view_norm)|]. split; [exact (norm_trans _ _ _ blocks_norm)|]. split; [exact (norm_trans _ _ _ aview_norm)|].
  split; [exact (norm_trans _ _ _ screen_norm)|exact (norm_trans _ _ _ project_norm)].
Qed.
Print Assumptions C98_transitive.

(** ** What has been read *)
(** A view file never has a NaN in it: what has been parsed equals itself. *)
Theorem C98_parsed s v : view_parse s = Ok v -> view_file_same v v.
Proof. intros H. apply (norm_refl _ _ _ file_norm). exact (file_numbers s v H). Qed.
Print Assumptions C98_parsed.
(** A project that has been loaded equals itself exactly if none of its code has a NaN as the value of a number. *)
Theorem C98_loaded mv ex rnd r p : loaded mv ex rnd r p -> (project_same p p <-> Forall code_numbers (sp_screens p)).
Proof. intros L. rewrite (norm_refl _ _ _ project_norm p). exact (loaded_numbers mv ex rnd r p L). Qed.
Print Assumptions C98_loaded.
(** Code that is written and read again equals the code before exactly if it is kept (C31) and has no NaN: not having
    to tell the zeros apart does not help. *)
Theorem C98_again l c : blocks_into l = Ok c -> 9 + N.of_nat (length c) < 2 ^ 31 ->
  (exists l', blocks_try_from c = Ok l' /\ blocks_same l l') <-> Forall SpecBlock.kept l /\ Forall block_numbers l.
Proof. apply trip_same. Qed.
Print Assumptions C98_again.

(** ** Examples *)
Definition number98 (x : flt) : blocks := [MkBlock None None green (lit "n") [SText (lit "n"); SParam (ArgNumber None (AValue x))] TRegular].
Definition raw98 (x : string) : list block := [rb 10 (-1) (lit "n") (lit "n %d") [lit x] (-1) (-1) (lit " ") []].
(** the two zeros are equal but are written differently; NaN comes back as it is but is not equal to itself *)
Example C98_example :
  blocks_same (number98 (FZero false)) (number98 (FZero true)) /\ number98 (FZero false) <> number98 (FZero true) /\
  blocks_into (number98 (FZero false)) = Ok (raw98 "0") /\ blocks_into (number98 (FZero true)) = Ok (raw98 "-0") /\
  blocks_into (number98 FNan) = Ok (raw98 "NaN") /\ blocks_try_from (raw98 "NaN") = Ok (number98 FNan) /\ ~ blocks_same (number98 FNan) (number98 FNan) /\
  ~ blocks_same (number98 (FZero false)) (number98 (FInf false)).
Proof.
  split; [cbn; tauto|]. split; [discriminate|]. split; [vm_compute; reflexivity|]. split; [vm_compute; reflexivity|]. split; [vm_compute; reflexivity|]. split; [vm_compute; reflexivity|].
  split; cbn; intuition discriminate.
Qed.
(** a project whose code has a NaN *)
Definition v98 (x : string) : parsed_project :=
  let v := v96 " " "" in
  {| pp_project := pp_project v; pp_file := pp_file v; pp_library := pp_library v; pp_resource := pp_resource v; pp_view := pp_view v;
     pp_logic := [(lit "MainActivity", {| sl_name := lit "MainActivity"; sl_block_containers := [(lit "onCreate_initializeLogic", raw98 x)]; sl_variables := None; sl_list_variables := None;
                   sl_components := None; sl_events := None; sl_more_blocks := None |})]; pp_resource_files := pp_resource_files v |}.
Example C98_project_example :
  (exists p, project_try_from (fun _ _ => 0) (v98 "NaN") = Ok p /\ ~ project_same p p) /\
  (exists p q, project_try_from (fun _ _ => 0) (v98 "-0.0") = Ok p /\ project_try_from (fun _ _ => 0) (v98 "0e5") = Ok q /\ project_same p q /\ p <> q).
Proof.
  split.
  - destruct (project_try_from (fun _ _ => 0) (v98 "NaN")) as [p| |] eqn:E; [|exfalso; vm_compute in E; discriminate E|exfalso; vm_compute in E; discriminate E]. exists p. split; [reflexivity|]. vm_compute in E. injection E as <-.
    intros H. apply C98_itself in H as [H _]. apply Forall_inv in H as (_ & _ & H & _). cbn [sc_events] in H. apply Forall_inv in H. cbn [ae_code] in H. apply Forall_inv in H as [H _]. apply Forall_inv_tail, Forall_inv in H. now apply H.
  - destruct (project_try_from (fun _ _ => 0) (v98 "-0.0")) as [p| |] eqn:E; [|exfalso; vm_compute in E; discriminate E|exfalso; vm_compute in E; discriminate E].
    destruct (project_try_from (fun _ _ => 0) (v98 "0e5")) as [q| |] eqn:F; [|exfalso; vm_compute in F; discriminate F|exfalso; vm_compute in F; discriminate F]. exists p, q. split; [reflexivity|]. split; [reflexivity|].
    vm_compute in E. injection E as <-. vm_compute in F. injection F as <-. split; [|discriminate]. apply C98_project. split; [|reflexivity].
    split; [|constructor]. constructor; [|constructor]. unfold screen_numbers. cbn [sc_layout sc_more_blocks sc_events sc_fab]. split; [|split; [apply Forall_nil|split; [|intros v [= <-]; cbn [aview_numbers]; repeat (split; [try discriminate|]); try discriminate; exact Logic.I]]].
    + repeat (constructor; [cbn [aview_numbers]; repeat (split; [try discriminate|]); try discriminate; exact Logic.I|]). constructor.
    + constructor; [|constructor]. constructor; [|constructor]. split; [|cbn; tauto]. constructor; [exact Logic.I|]. constructor; [discriminate|constructor].
Qed.
(** a layout with a view that has the scale 0.0 or -0.0 *)
Definition view98 (x : flt) : view :=
  let v := view_new_empty (lit "button1") 3 (lit "root") (-1) in
  {| vw_layouts := [(lit "main", [{| av_ad_size := av_ad_size v; av_ad_unit_id := av_ad_unit_id v; av_alpha := av_alpha v; av_checked := av_checked v;
       av_choice_mode := av_choice_mode v; av_clickable := av_clickable v; av_custom_view := av_custom_view v; av_divider_height := av_divider_height v;
       av_enabled := av_enabled v; av_first_day_of_week := av_first_day_of_week v; av_id := av_id v; av_image := av_image v;
       av_indeterminate := av_indeterminate v; av_index := av_index v; av_layout := av_layout v; av_max := av_max v;
       av_parent := av_parent v; av_parent_type := av_parent_type v; av_pre_id := av_pre_id v; av_pre_index := av_pre_index v;
       av_pre_parent := av_pre_parent v; av_pre_parent_type := av_pre_parent_type v; av_progress := av_progress v; av_progress_style := av_progress_style v;
       av_scale_x := x; av_scale_y := av_scale_y v; av_spinner_mode := av_spinner_mode v; av_text := av_text v;
       av_translation_x := av_translation_x v; av_translation_y := av_translation_y v; av_type := av_type v |}])]; vw_fabs := [] |}.
Example C98_parsed_example :
  view_parse (view_reconstruct (view98 (FZero true))) = Ok (view98 (FZero true)) /\ view_file_same (view98 (FZero true)) (view98 (FZero false)) /\
  view_reconstruct (view98 (FZero true)) <> view_reconstruct (view98 (FZero false)) /\
  ~ view_file_same (view98 FNan) (view98 FNan) /\ exists e, view_parse (view_reconstruct (view98 FNan)) = Err e.
Proof.
  split; [vm_compute; reflexivity|]. split; [|split; [|split]].
  - apply C98_view_file. split; [|reflexivity]. split; [|constructor]. constructor; [|constructor]. constructor; [|constructor]. repeat split; discriminate.
  - assert (A : view_parse (view_reconstruct (view98 (FZero true))) = Ok (view98 (FZero true))) by (vm_compute; reflexivity).
    assert (B : view_parse (view_reconstruct (view98 (FZero false))) = Ok (view98 (FZero false))) by (vm_compute; reflexivity).
    intros E. rewrite E, B in A. clear E B.
    pose proof (f_equal (fun r => match r with Ok {| vw_layouts := [(_, [v])] |} => Some (av_scale_x v) | _ => None end) A) as C. discriminate C.
  - intros H. apply C98_view_file in H as [[H _] _]. apply Forall_inv, Forall_inv in H as (_ & H & _). now apply H.
  - eexists. vm_compute. reflexivity.
Qed.
