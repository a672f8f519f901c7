(** C107: what has been read from a data file can be written and read again. The other round trips start from a value whose numbers are in the
    range of their Rust types; here the value is whatever some text was read as, and nothing is asked of the text. *)
From Verif Require Import Base Str Flt Json M_Color M_File M_Library M_Resource M_View M_Logic M_Date M_Project SpecReread RereadProofs LogicRereadProofs P_Files P_View P_Logic P_Project.
From Coq Require Import Lia Permutation.

(** the records that stand on a line of their own *)
Theorem C107_records s :
  (forall x, file_item_parse s = Some x -> file_item_parse (file_item_reconstruct x) = Some x) /\
  (forall x, library_item_parse s = Some x -> library_item_parse (library_item_reconstruct x) = Some x) /\
  (forall x, resource_item_parse s = Some x -> resource_item_parse (resource_item_reconstruct x) = Some x) /\
  (forall x, component_parse s = Ok x -> component_parse (component_reconstruct x) = Ok x) /\
  (forall x, event_parse s = Ok x -> event_parse (event_reconstruct x) = Ok x) /\
  (forall x, block_parse s = Ok x -> block_parse (block_reconstruct x) = Ok x).
Proof.
  split; [intros x _; apply C11_file_item|]. split; [intros x H; eapply C11_library_item, library_line_range; eauto|]. split; [intros x H; eapply C11_resource_item, resource_line_range; eauto|].
  split; [intros x H; eapply C12_component, component_line_range; eauto|]. split; [intros x H; eapply C12_event, event_line_range; eauto|]. intros x H; eapply C12_block, block_line_range; eauto.
Qed.
Print Assumptions C107_records.

(** the library and resource files and the lists of the logic file *)
Theorem C107_files s :
  (forall x, library_parse s = Ok x -> library_parse (library_reconstruct x) = Ok x) /\
  (forall x, resource_parse s = Ok x -> resource_parse (resource_reconstruct x) = Ok x) /\
  (forall x, component_pool_parse s = Ok x -> component_pool_parse (component_pool_reconstruct x) = Ok x) /\
  (forall x, event_pool_parse s = Ok x -> event_pool_parse (event_pool_reconstruct x) = Ok x) /\
  (forall x, block_container_parse s = Ok x -> block_container_parse (block_container_reconstruct x) = Ok x).
Proof.
  split; [intros x H; eapply C17_roundtrip, library_range; eauto|]. split; [intros x H; eapply C18_roundtrip, resource_range; eauto|].
  split; [intros x H; apply (C12_pools x [] []); auto; eapply components_range; eauto|]. split; [intros x H; apply (C12_pools [] x []); auto; eapply events_range; eauto|].
  intros x H. apply (C12_pools [] [] x); auto. eapply blocks_range; eauto.
Qed.
Print Assumptions C107_files.

(** the file list, unless it has custom views only *)
Theorem C107_file s f : file_parse s = Ok f -> file_parse (file_reconstruct f) = Ok f <-> f_activities f <> [] \/ f_custom_views f = [].
Proof.
  intros _. split; [|apply C16_roundtrip_partial]. intros R. destruct (f_activities f) as [|a l] eqn:EA; [|left; discriminate]. right. destruct (f_custom_views f) as [|c m] eqn:EC; [reflexivity|].
  exfalso. destruct (C16_refuted f EA) as [_ K]; [congruence|now apply K].
Qed.
Print Assumptions C107_file.

(** a view, unless one of its floats is too large for an f32: that is read as an infinity and written as null *)
Theorem C107_view s x : view_line_parse s = Some x ->
  view_line_parse (view_line_reconstruct x) = Some x <-> Forall (fun f => f <> FInf false /\ f <> FInf true) [av_alpha x; av_scale_x x; av_scale_y x; av_translation_x x; av_translation_y x].
Proof.
  intros H. rewrite (view_reread s x H). apply view_line_range in H as [_ F]. unfold finite_floats, floats in *. split.
  - intros K. eapply Forall_impl; [|exact K]. intros f (_ & _ & A). exact A.
  - intros K. revert F K. generalize [av_alpha x; av_scale_x x; av_scale_y x; av_translation_x x; av_translation_y x]. intros l F K. induction F as [|f l [F1 F2] _ IH]; [constructor|].
    apply Forall_cons_iff in K as [[K1 K2] K]. constructor; [|auto]. split; [exact F1|]. split; [exact F2|]. split; assumption.
Qed.
Print Assumptions C107_view.
(** the view file: all floats finite, and the layouts as C20 says *)
Theorem C107_views s v : view_parse s = Ok v ->
  view_parse (view_reconstruct v) = Ok v <->
  (forall x, In x (concat (map snd (vw_layouts v)) ++ map snd (vw_fabs v)) -> finite_floats x) /\ separable_view v.
Proof.
  intros H. rewrite (view_file_reread s v H). assert (E : file_finite v <-> forall x, In x (concat (map snd (vw_layouts v)) ++ map snd (vw_fabs v)) -> finite_floats x); [|rewrite E; reflexivity].
  unfold file_finite. rewrite <- (Forall_forall finite_floats), Forall_app, Forall_concat, !Forall_map. reflexivity.
Qed.
Print Assumptions C107_views.

(** the logic file, if its names can be written ([screen_plain]): it is read without an error, and as the same screens just when those with
    block containers come first. Every screen that was read has some section. *)
Theorem C107_logic mv s l : logic_parse mv s = Ok l -> Forall (fun kv => screen_plain (snd kv)) l ->
  exists r, logic_parse mv (logic_reconstruct l) = Ok r /\ (Permutation r l <-> containers_first l).
Proof. apply logic_reread. Qed.
Print Assumptions C107_logic.

(** the project file can always be written again, and is read again just when C25 says its date is *)
Theorem C107_project s p : project_parse s = Ok p ->
  exists dt t, datetime_of_timestamp (i64_of_u64 (pj_date_created p)) = Some dt /\ project_reconstruct p = Ok t /\ (project_parse t = Ok p <-> date_kept dt).
Proof.
  intros H. apply project_read in H as [R [dt D]]. exists dt. destruct (project_reconstruct p) as [t| |] eqn:E.
  - exists t. split; [exact D|]. split; [reflexivity|]. pose proof (C26_exact p R) as X. rewrite E, D in X. split.
    + intros P. destruct X as [X _]. destruct X as (dt' & [= <-] & K); [eauto|exact K].
    + intros K. destruct X as [_ X]. destruct X as (t' & [= <-] & P); [eauto|exact P].
  - exfalso. unfold project_reconstruct, date_ser in E. rewrite D in E. discriminate.
  - exfalso. unfold project_reconstruct, date_ser in E. rewrite D in E. discriminate.
Qed.
Print Assumptions C107_project.

(** a block with fields out of order, an unknown one and a colour beyond the range; resources with junk in front, one of them written as an array *)
Definition block107 : str := lit "{""id"":""1"",""zzz"":[1,{}],""color"":1e99,""nextBlock"":-1,""opCode"":""a"",""parameters"":[],""spec"":""s"",""subStack1"":-1,""subStack2"":-1,""type"":"" "",""typeName"":""""}".
Definition resource107 : str := lit "junk" ++ [10] ++ lit "@fonts" ++ [10] ++ lit "{ ""resType"":2, ""resName"":""f"", ""resFullName"":""f.ttf"" }" ++ [10] ++ lit "@images" ++ [10] ++ lit "[""a.png"",""a"",1]".
Definition huge107 (v : android_view) : android_view :=
  {| av_ad_size := av_ad_size v; av_ad_unit_id := av_ad_unit_id v; av_alpha := FInf false; av_checked := av_checked v; av_choice_mode := av_choice_mode v; av_clickable := av_clickable v;
     av_custom_view := av_custom_view v; av_divider_height := av_divider_height v; av_enabled := av_enabled v; av_first_day_of_week := av_first_day_of_week v; av_id := av_id v;
     av_image := av_image v; av_indeterminate := av_indeterminate v; av_index := av_index v; av_layout := av_layout v; av_max := av_max v; av_parent := av_parent v;
     av_parent_type := av_parent_type v; av_pre_id := av_pre_id v; av_pre_index := av_pre_index v; av_pre_parent := av_pre_parent v; av_pre_parent_type := av_pre_parent_type v;
     av_progress := av_progress v; av_progress_style := av_progress_style v; av_scale_x := av_scale_x v; av_scale_y := av_scale_y v; av_spinner_mode := av_spinner_mode v;
     av_text := av_text v; av_translation_x := av_translation_x v; av_translation_y := av_translation_y v; av_type := av_type v |}.
(** the text of a view with another alpha *)
Definition with_alpha (a : str) (s : str) : str := match split_once (lit """alpha"":1.0") s with Some (x, y) => x ++ lit """alpha"":" ++ a ++ y | None => s end.
Definition logic107 : str := join 10 [lit "@A.java_func"; lit "m:m %s.x"; []; lit "@A.java_onCreate"; []; lit "@A.java_events"; []; lit "@B.java_var"; lit "+1:k"; lit "0:j"; lit "2:k"; [] ].
Definition read107 : logic :=
  [(lit "A", {| sl_name := lit "A"; sl_block_containers := [(lit "onCreate", [])]; sl_variables := None; sl_list_variables := None; sl_components := None; sl_events := Some [];
                sl_more_blocks := Some [(lit "m", {| mb_id := lit "m"; mb_spec := lit "m %s.x" |})] |});
   (lit "B", {| sl_name := lit "B"; sl_block_containers := []; sl_variables := Some [(lit "j", {| va_name := lit "j"; va_type := VtBoolean |}); (lit "k", {| va_name := lit "k"; va_type := VtString |})];
                sl_list_variables := None; sl_components := None; sl_events := None; sl_more_blocks := None |})].
Lemma ends_by {A} (part : A -> str) (o : option (smap A)) : match o with None => true | Some p => match rev p with [] => true | (_, x) :: _ => match rev (part x) with [] => true | c :: _ => negb (is_ws c) end end end = true -> ends_plain part o.
Proof. intros H r k x s c -> E. rewrite rev_app_distr in H. cbn [rev app] in H. rewrite E, rev_app_distr in H. cbn [rev app] in H. now destruct (is_ws c). Qed.
Lemma read107_plain : Forall (fun kv => screen_plain (snd kv)) read107.
Proof.
  assert (J : forall n a b, (length n < 2)%nat -> n <> a ++ lit ".java_" ++ b) by (intros n a b L ->; rewrite !app_length in L; cbn in L; lia).
  constructor; [|constructor; [|constructor]]; cbn [snd]; (split; [intros a b; apply J; cbn; lia|]); (split; [apply ends_by; reflexivity|]); (split; [apply ends_by; reflexivity|]); (split; [apply ends_by; reflexivity|]); cbn [sl_more_blocks sl_block_containers].
  - split; [intros k x r c n [= <- <- <-] [= <- _]; reflexivity|]. split.
    + constructor; [|constructor]. intros s a I E. cbn [fst] in E. apply (f_equal (@rev N)) in E. rewrite !rev_app_distr in E. cbn in I.
      repeat (destruct I as [<-|I]; [vm_compute in E; discriminate E|]). destruct I.
    + intros r c a w E F. destruct r as [|? r]; [|destruct r; discriminate]. injection E as E. rewrite <- E in F. apply (f_equal (@rev N)) in F. rewrite rev_app_distr in F. cbn in F. injection F as <- _. reflexivity.
  - split; [intros k x r c n [=]|]. split; [constructor|]. intros r c a w E. destruct r; discriminate.
Qed.
Example C107_example :
  (exists b, block_parse block107 = Ok b /\ block_reconstruct b <> block107 /\ block_parse (block_reconstruct b) = Ok b) /\
  (exists r, resource_parse resource107 = Ok r /\ length (rs_fonts r) = 1%nat /\ length (rs_images r) = 1%nat /\ resource_parse (resource_reconstruct r) = Ok r) /\
  (logic_parse true logic107 = Ok read107 /\ Forall (fun kv => screen_plain (snd kv)) read107 /\ containers_first read107 /\ logic_reconstruct read107 <> logic107 /\
   logic_parse true (logic_reconstruct read107) = Ok (rev read107)) /\
  (let v := view_new_empty (lit "v") 0 (lit "root") 0 in
   view_line_parse (with_alpha (lit "1e39") (view_line_reconstruct v)) = Some (huge107 v) /\ view_line_parse (view_line_reconstruct (huge107 v)) = None /\
   view_line_parse (with_alpha (lit "10e-1") (view_line_reconstruct v)) = Some v /\ view_line_parse (view_line_reconstruct v) = Some v).
Proof.
  split; [|split; [|split]].
  - eexists. split; [vm_compute; reflexivity|]. split; [vm_compute; discriminate|vm_compute; reflexivity].
  - eexists. split; [vm_compute; reflexivity|]. split; [reflexivity|]. split; [reflexivity|vm_compute; reflexivity].
  - split; [vm_compute; reflexivity|]. split; [exact read107_plain|]. split; [|split; [vm_compute; discriminate|vm_compute; reflexivity]].
    exists [nth 0 read107 (lit "", screen_new_empty [])], [nth 1 read107 (lit "", screen_new_empty [])]. split; [reflexivity|]. split; (constructor; [|constructor]); [discriminate|reflexivity].
  - vm_compute. auto.
Qed.
