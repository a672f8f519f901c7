(** Proofs about [M_File.v], [M_Library.v] and [M_Resource.v]. *)
From Verif Require Import Base Str Dec Json JsonProofs Recs RecsProofs LinesProofs M_File M_Library M_Resource.

Ltac field_rt := rewrite sf_obj by reflexivity; cbn [obind map assoc String.eqb Ascii.eqb Bool.eqb req e_str d_str].

(** ** Records *)
Lemma file_type_rt t : file_type_of (file_type_num t) = Some t. Proof. now destruct t. Qed.
Lemma keyboard_rt t : keyboard_of (keyboard_num t) = Some t. Proof. now destruct t. Qed.
Lemma orientation_rt t : orientation_of (orientation_num t) = Some t. Proof. now destruct t. Qed.
Lemma theme_rt t : theme_of (theme_num t) = Some t. Proof. now destruct t. Qed.
Lemma options_rt o : options_from_num (options_as_num o) = o.
Proof. destruct o as [[] [] [] []]; reflexivity. Qed.
Lemma options_lt o : options_as_num o < 16.
Proof. destruct o as [[] [] [] []]; reflexivity. Qed.
Lemma e_file_item_wf x : wf_json (e_file_item x) = true.
Proof. unfold e_file_item. rewrite wf_e_obj. cbn [forallb snd]. rewrite !wf_e_int. reflexivity. Qed.
Lemma d_file_item_e x : d_file_item (e_file_item x) = Some x.
Proof.
  unfold d_file_item, e_file_item. field_rt.
  rewrite d_u8_e by (destruct (fi_type x); cbn; lia). cbn [obind]. rewrite file_type_rt. cbn [obind].
  rewrite d_u8_e by (destruct (fi_keyboard x); cbn; lia). cbn [obind]. rewrite keyboard_rt. cbn [obind].
  rewrite d_u8_e by (pose proof (options_lt (fi_options x)); lia). cbn [obind]. rewrite options_rt.
  rewrite d_u8_e by (destruct (fi_orientation x); cbn; lia). cbn [obind]. rewrite orientation_rt. cbn [obind].
  unfold d_i8. rewrite d_int_e_int by (destruct (fi_theme x); cbn; lia). cbn [obind]. rewrite theme_rt. cbn [obind].
  now destruct x.
Qed.
Lemma file_item_rt x : file_item_parse (file_item_reconstruct x) = Some x.
Proof. apply from_to; [apply e_file_item_wf|apply d_file_item_e]. Qed.
Lemma file_item_clean x : clean_line (file_item_reconstruct x).
Proof. eapply to_string_clean; [reflexivity|apply e_file_item_wf]. Qed.

Lemma e_ad_unit_wf x : wf_json (e_ad_unit x) = true. Proof. reflexivity. Qed.
Lemma d_ad_unit_e x : d_ad_unit (e_ad_unit x) = Some x.
Proof. unfold d_ad_unit, e_ad_unit. field_rt. now destruct x. Qed.
Lemma e_library_item_wf x : wf_json (e_library_item x) = true.
Proof.
  unfold e_library_item. rewrite wf_e_obj. cbn [forallb snd]. rewrite wf_e_int.
  rewrite !wf_arr by (intros; reflexivity). reflexivity.
Qed.
Lemma d_library_item_e x : li_lib_type x <= 255 -> d_library_item (e_library_item x) = Some x.
Proof.
  intros H. unfold d_library_item, e_library_item. field_rt.
  rewrite (d_list_e d_ad_unit) by (intros; apply d_ad_unit_e). cbn [obind].
  rewrite d_u8_e by auto. cbn [obind]. rewrite (d_list_e d_str) by reflexivity. cbn [obind]. now destruct x.
Qed.
Lemma library_item_rt x : li_lib_type x <= 255 -> library_item_parse (library_item_reconstruct x) = Some x.
Proof. intros H. apply from_to; [apply e_library_item_wf|now apply d_library_item_e]. Qed.
Lemma library_item_clean x : clean_line (library_item_reconstruct x).
Proof. eapply to_string_clean; [reflexivity|apply e_library_item_wf]. Qed.

Lemma e_resource_item_wf x : wf_json (e_resource_item x) = true.
Proof. unfold e_resource_item. rewrite wf_e_obj. cbn [forallb snd]. rewrite wf_e_int. reflexivity. Qed.
Lemma resource_item_rt x : ri_type x <= 255 -> resource_item_parse (resource_item_reconstruct x) = Some x.
Proof.
  intros H. apply from_to; [apply e_resource_item_wf|]. unfold d_resource_item, e_resource_item. field_rt.
  rewrite d_u8_e by auto. cbn [obind]. now destruct x.
Qed.
Lemma resource_item_clean x : clean_line (resource_item_reconstruct x).
Proof. eapply to_string_clean; [reflexivity|apply e_resource_item_wf]. Qed.

(** ** file *)
Definition file_push (s : file_section) (l : list file_item) (f : file) : file :=
  match s with
  | FsActivity => {| f_activities := f_activities f ++ l; f_custom_views := f_custom_views f |}
  | _ => {| f_activities := f_activities f; f_custom_views := f_custom_views f ++ l |}
  end.
Lemma file_push_nil s f : file_push s [] f = f.
Proof. destruct f, s; cbn; now rewrite app_nil_r. Qed.
Lemma file_loop_items l rest s acc n : s <> FsNone ->
  file_loop (map file_item_reconstruct l ++ rest) s acc n = file_loop rest s (file_push s l acc) (n + N.of_nat (length l)).
Proof.
  intros Hs. revert acc n; induction l as [|x l IH]; intros acc n.
  - rewrite file_push_nil, N.add_0_r. reflexivity.
  - cbn [map app file_loop].
    pose proof (file_item_clean x) as C.
    rewrite (clean_not_header _ (lit "activity") C : str_eqb (file_item_reconstruct x) (lit "@activity") = false).
    rewrite (clean_not_header _ (lit "customview") C : str_eqb (file_item_reconstruct x) (lit "@customview") = false).
    rewrite file_item_rt. destruct (clean_head _ C) as [t E]. rewrite E.
    replace (n + N.of_nat (length (x :: l))) with (n + 1 + N.of_nat (length l)) by (cbn [length]; lia).
    destruct s; [| |congruence]; rewrite IH; f_equal; unfold file_push; cbn; rewrite <- app_assoc; reflexivity.
Qed.
Lemma file_items_text_join l : file_items_text l = join NL (map file_item_reconstruct l).
Proof. unfold file_items_text. apply trim_fold_pre. apply Forall_forall. intros. apply file_item_clean. Qed.
Definition lines_of (l : list str) : list str := match l with [] => [[]] | _ => l end.
Lemma join_lines_of l : join NL (lines_of l) = join NL l.
Proof. now destruct l. Qed.
Lemma lines_of_ne l : lines_of l <> [].
Proof. now destruct l. Qed.
Lemma file_reconstruct_lines f : split_on NL (file_reconstruct f) =
  [lit "@activity"] ++ lines_of (map file_item_reconstruct (f_activities f)) ++
  [lit "@customview"] ++ lines_of (map file_item_reconstruct (f_custom_views f)).
Proof.
  unfold file_reconstruct. rewrite !file_items_text_join.
  rewrite <- (join_lines_of (map _ (f_activities f))), <- (join_lines_of (map _ (f_custom_views f))).
  set (A := lines_of (map _ (f_activities f))). set (B := lines_of (map _ (f_custom_views f))).
  assert (HA : A <> []) by apply lines_of_ne. assert (HB : B <> []) by apply lines_of_ne.
  transitivity (split_on NL (join NL ([lit "@activity"] ++ A ++ [lit "@customview"] ++ B))).
  - f_equal. rewrite (join_app NL [lit "@activity"]) by (auto; try discriminate; destruct A; discriminate).
    rewrite (join_app NL A) by (auto; discriminate). rewrite (join_app NL [lit "@customview"]) by (auto; discriminate). reflexivity.
  - apply split_join; [discriminate|].
    assert (L : forall l, Forall (fun s => ~ In NL s) (lines_of (map file_item_reconstruct l))).
    { intros l. destruct l as [|y l]; [repeat constructor; cbn; tauto|]. unfold lines_of. cbn [map].
      change (file_item_reconstruct y :: map file_item_reconstruct l) with (map file_item_reconstruct (y :: l)).
      apply Forall_map, Forall_forall. intros z _. apply clean_no_nl, file_item_clean. }
    cbn [app]. constructor; [nonl|]. apply Forall_app. split; [apply L|]. constructor; [nonl|apply L].
Qed.
Lemma file_rt f : f_activities f <> [] -> file_parse (file_reconstruct f) = Ok f.
Proof.
  intros H. unfold file_parse. rewrite file_reconstruct_lines.
  set (n := 0). clearbody n.
  assert (E : lines_of (map file_item_reconstruct (f_activities f)) = map file_item_reconstruct (f_activities f))
    by (destruct (f_activities f); [congruence|reflexivity]).
  cbn [app file_loop]. rewrite str_eqb_refl. rewrite E, file_loop_items by discriminate.
  set (m := n + 1 + _). clearbody m. cbn [app file_loop].
  change (str_eqb (lit "@customview") (lit "@activity")) with false. rewrite str_eqb_refl. cbv iota.
  destruct (f_custom_views f) as [|c cs] eqn:EC.
  - cbn. destruct f as [fa fc]. cbn in EC. subst. reflexivity.
  - unfold lines_of. cbn [map]. 
    change (file_item_reconstruct c :: map file_item_reconstruct cs) with (map file_item_reconstruct (c :: cs)).
    rewrite <- (app_nil_r (map _ (c :: cs))), file_loop_items by discriminate. cbn [file_loop file_push f_activities f_custom_views app].
    rewrite <- EC. destruct f; reflexivity.
Qed.
Lemma file_rt_empty f : f_activities f = [] -> file_parse (file_reconstruct f) = Ok {| f_activities := []; f_custom_views := [] |}.
Proof.
  intros H. unfold file_parse. rewrite file_reconstruct_lines, H. reflexivity.
Qed.

(** ** library *)
Definition lib_ok (l : library) : Prop :=
  li_lib_type (l_firebase l) <= 255 /\ li_lib_type (l_compat l) <= 255 /\
  li_lib_type (l_admob l) <= 255 /\ li_lib_type (l_google_map l) <= 255.
Definition lib_lines (l : library) : list str :=
  [lib_header LFirebase; library_item_reconstruct (l_firebase l);
   lib_header LCompat; library_item_reconstruct (l_compat l);
   lib_header LAdmob; library_item_reconstruct (l_admob l);
   lib_header LGoogleMap; library_item_reconstruct (l_google_map l)].
Lemma library_reconstruct_lines l : split_on NL (library_reconstruct l) = lib_lines l.
Proof.
  transitivity (split_on NL (join NL (lib_lines l))).
  - f_equal.
  - apply split_join; [discriminate|]. unfold lib_lines.
    repeat (apply Forall_cons; [first [apply clean_no_nl, library_item_clean|nonl]|]). constructor.
Qed.
Lemma lib_slot_of_header s : lib_slot_of (lib_header s) = Some s.
Proof. destruct s; reflexivity. Qed.
Lemma library_rt l : lib_ok l -> library_parse (library_reconstruct l) = Ok l.
Proof.
  intros (H1 & H2 & H3 & H4). unfold library_parse. rewrite library_reconstruct_lines. unfold lib_lines.
  cbn [lib_loop]. rewrite !lib_slot_of_header, !library_item_rt by auto. cbn. now destruct l.
Qed.

(** ** resource *)
Definition resource_ok (r : resource) : Prop :=
  Forall (fun i => ri_type i <= 255) (rs_images r) /\ Forall (fun i => ri_type i <= 255) (rs_sounds r) /\
  Forall (fun i => ri_type i <= 255) (rs_fonts r).
Definition rs_push_all (s : res_section) (l : list resource_item) (r : resource) : resource :=
  match s with
  | RsImages => {| rs_images := rs_images r ++ l; rs_sounds := rs_sounds r; rs_fonts := rs_fonts r |}
  | RsSounds => {| rs_images := rs_images r; rs_sounds := rs_sounds r ++ l; rs_fonts := rs_fonts r |}
  | _ => {| rs_images := rs_images r; rs_sounds := rs_sounds r; rs_fonts := rs_fonts r ++ l |}
  end.
Lemma rs_push_nil s f : rs_push_all s [] f = f.
Proof. destruct f, s; cbn; now rewrite app_nil_r. Qed.
Lemma resource_loop_items l rest s acc n : s <> RsNone -> Forall (fun i => ri_type i <= 255) l ->
  resource_loop (map resource_item_reconstruct l ++ rest) s acc n = resource_loop rest s (rs_push_all s l acc) (n + N.of_nat (length l)).
Proof.
  intros Hs H. revert acc n; induction H as [|x l Hx Hl IH]; intros acc n.
  - rewrite rs_push_nil, N.add_0_r. reflexivity.
  - cbn [map app resource_loop].
    pose proof (resource_item_clean x) as C.
    rewrite (clean_not_header _ (lit "images") C : str_eqb (resource_item_reconstruct x) (lit "@images") = false).
    rewrite (clean_not_header _ (lit "sounds") C : str_eqb (resource_item_reconstruct x) (lit "@sounds") = false).
    rewrite (clean_not_header _ (lit "fonts") C : str_eqb (resource_item_reconstruct x) (lit "@fonts") = false).
    rewrite resource_item_rt by auto. destruct (clean_head _ C) as [t E]. rewrite E.
    replace (n + N.of_nat (length (x :: l))) with (n + 1 + N.of_nat (length l)) by (cbn [length]; lia).
    destruct s; [| | |congruence]; rewrite IH; f_equal; unfold rs_push_all, rs_push; cbn; rewrite <- app_assoc; reflexivity.
Qed.
Lemma items_then l h rest : rest <> [] ->
  resource_items_text l ++ h ++ NL :: join NL rest = join NL (map resource_item_reconstruct l ++ h :: rest).
Proof.
  intros Hr. unfold resource_items_text. rewrite fold_post. cbn [app]. induction l as [|x l IH].
  - cbn [map concat app]. now apply join_nil_sep.
  - cbn [map concat app]. rewrite <- !app_assoc, IH. cbn [app]. apply join_nil_sep. destruct l; discriminate.
Qed.
Lemma resource_reconstruct_lines r : split_on NL (resource_reconstruct r) =
  [lit "@images"] ++ map resource_item_reconstruct (rs_images r) ++ [lit "@sounds"] ++
  map resource_item_reconstruct (rs_sounds r) ++ [lit "@fonts"] ++ lines_of (map resource_item_reconstruct (rs_fonts r)).
Proof.
  unfold resource_reconstruct. unfold resource_items_text at 3. rewrite trim_fold_post
    by (apply Forall_forall; intros; apply resource_item_clean).
  rewrite <- (join_lines_of (map _ (rs_fonts r))).
  set (F := lines_of (map _ (rs_fonts r))). assert (HF : F <> []) by apply lines_of_ne.
  cbn [app]. rewrite (items_then (rs_sounds r) (lit "@fonts") F HF).
  rewrite (items_then (rs_images r) (lit "@sounds")) by (destruct (rs_sounds r); discriminate).
  rewrite join_nil_sep by (destruct (rs_images r); discriminate).
  apply split_join; [discriminate|].
  assert (L : forall l, Forall (fun s => ~ In NL s) (map resource_item_reconstruct l)).
  { intros l. apply Forall_map, Forall_forall. intros z _. apply clean_no_nl, resource_item_clean. }
  assert (LF : Forall (fun s => ~ In NL s) F).
  { unfold F. destruct (rs_fonts r) as [|y l]; [repeat constructor; cbn; tauto|apply (L (y :: l))]. }
  constructor; [nonl|]. apply Forall_app; split; [apply L|]. constructor; [nonl|].
  apply Forall_app; split; [apply L|]. constructor; [nonl|]. apply LF.
Qed.
Lemma resource_rt r : resource_ok r -> resource_parse (resource_reconstruct r) = Ok r.
Proof.
  intros (H1 & H2 & H3). unfold resource_parse. rewrite resource_reconstruct_lines.
  set (n := 0). clearbody n. cbn [app resource_loop]. rewrite str_eqb_refl.
  rewrite resource_loop_items by (auto; discriminate).
  set (m := n + 1 + _). clearbody m. cbn [app resource_loop].
  change (str_eqb (lit "@sounds") (lit "@images")) with false. rewrite str_eqb_refl. cbv iota.
  rewrite resource_loop_items by (auto; discriminate).
  set (k := m + 1 + _). clearbody k. cbn [app resource_loop].
  change (str_eqb (lit "@fonts") (lit "@images")) with false. change (str_eqb (lit "@fonts") (lit "@sounds")) with false.
  rewrite str_eqb_refl. cbv iota. destruct (rs_fonts r) as [|c cs] eqn:EC.
  - cbn. destruct r as [ra rb rc]. cbn in EC. subst. reflexivity.
  - unfold lines_of. cbn [map].
    change (resource_item_reconstruct c :: map resource_item_reconstruct cs) with (map resource_item_reconstruct (c :: cs)).
    rewrite <- (app_nil_r (map _ (c :: cs))), resource_loop_items by (auto; discriminate).
    cbn [resource_loop rs_push_all rs_images rs_sounds rs_fonts app].
    rewrite <- EC. destruct r; reflexivity.
Qed.
