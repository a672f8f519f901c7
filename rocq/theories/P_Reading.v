(** Properties C57-C64: what each data file means, line by line, for every text (not only for text that the
    library has written), and what its errors say. The specifications are in SpecLines.v and SpecReading.v. *)
From Coq Require Import Sorted Permutation.
From Verif Require Import Base Str Spec SpecLines SpecReading Dec Flt Json JsonProofs Recs RecsProofs M_Color M_Date M_File M_Resource M_Library M_View
  M_Logic M_Project LogicProofs ReadingProofs LogicReadingProofs ProjectReadingProofs.

(** C57 *)
Theorem C57_file s f : file_parse s = Ok f <->
  section_items file_headers (split_on NL s) file_item_parse (lit "@activity") (f_activities f) /\
  section_items file_headers (split_on NL s) file_item_parse (lit "@customview") (f_custom_views f).
Proof. exact (file_parse_ok s f). Qed.
Print Assumptions C57_file.
Theorem C57_file_error s n l : file_parse s = Err (FileItemParseError n l) <->
  exists i h, n = N.of_nat i /\ first_bad file_headers (split_on NL s) file_item_parse i h l.
Proof. exact (file_parse_err s n l). Qed.
Print Assumptions C57_file_error.
Definition ex_item (n : str) : file_item :=
  {| fi_filename := n; fi_type := FtActivity; fi_keyboard := KbUnspecified; fi_options := options_from_num 1; fi_orientation := OrPortrait; fi_theme := ThDefault |}.
Definition ex_line (n : str) : str := file_item_reconstruct (ex_item n).
Definition join_lines (l : list str) : str := fold_right (fun x y => x ++ NL :: y) [] l.
Example C57_example :
  file_parse (join_lines [lit "junk"; []; lit "@customview"; ex_line (lit "a"); lit "@activity"; ex_line (lit "b"); lit "@customview"; ex_line (lit "c"); []; lit "@activity"; lit "junk"]) =
    Ok {| f_activities := [ex_item (lit "b")]; f_custom_views := [ex_item (lit "a"); ex_item (lit "c")] |} /\
  file_parse (join_lines [lit "junk"; []; lit "@customview"; ex_line (lit "a"); lit "@activity"; lit "{}"]) = Err (FileItemParseError 5 (lit "{}")).
Proof. vm_compute. auto. Qed.

(** C58 *)
Theorem C58_resource s r : resource_parse s = Ok r <->
  section_items res_headers (split_on NL s) resource_item_parse (lit "@images") (rs_images r) /\
  section_items res_headers (split_on NL s) resource_item_parse (lit "@sounds") (rs_sounds r) /\
  section_items res_headers (split_on NL s) resource_item_parse (lit "@fonts") (rs_fonts r).
Proof. exact (resource_parse_ok s r). Qed.
Print Assumptions C58_resource.
Theorem C58_resource_error s sec n : resource_parse s = Err (ResourceItemParseError sec n) <->
  exists i h l, n = N.of_nat i /\ sec = rsec (Some h) /\ first_bad res_headers (split_on NL s) resource_item_parse i h l.
Proof. exact (resource_parse_err s sec n). Qed.
Print Assumptions C58_resource_error.
Definition ex_res (n : str) : resource_item := {| ri_full_name := n; ri_name := n; ri_type := 1 |}.
Example C58_example :
  resource_parse (join_lines [lit "@fonts"; resource_item_reconstruct (ex_res (lit "f")); lit "@images"; resource_item_reconstruct (ex_res (lit "i")); lit "@fonts"; resource_item_reconstruct (ex_res (lit "g"))]) =
    Ok {| rs_images := [ex_res (lit "i")]; rs_sounds := []; rs_fonts := [ex_res (lit "f"); ex_res (lit "g")] |} /\
  resource_parse (join_lines [lit "@sounds"; resource_item_reconstruct (ex_res (lit "f")); lit "[]"]) = Err (ResourceItemParseError RsSounds 2).
Proof. vm_compute. auto. Qed.

(** C59 *)
Theorem C59_library s l : library_parse s = Ok l <->
  exists ps, library_picks lib_headers (split_on NL s) ps [] /\ lib_items_ok ps /\
    forall h x, In (h, x) (lib_slots l) -> exists i, is_last (fun p => fst p = h) ps (h, i) /\ library_item_parse i = Some x.
Proof. exact (library_parse_ok s l). Qed.
Print Assumptions C59_library.
Theorem C59_library_error s e : library_parse s = Err e <->
  exists ps rest, library_picks lib_headers (split_on NL s) ps rest /\ lib_items_ok ps /\
    ((exists h, e = EOFAfterHeader h /\ rest = [h] /\ In h lib_headers) \/
     (exists h i r, e = LibraryItemParseError h (N.of_nat (length (split_on NL s) - length rest - length ps)) /\
        rest = h :: i :: r /\ In h lib_headers /\ library_item_parse i = None) \/
     (exists pre h post, e = MissingItem h /\ rest = [] /\ lib_headers = pre ++ h :: post /\
        ~ In h (map fst ps) /\ incl pre (map fst ps))).
Proof. exact (library_parse_err s e). Qed.
Print Assumptions C59_library_error.
Definition ex_lib (d : str) : library_item :=
  {| li_ad_units := []; li_data := d; li_lib_type := 0; li_reserved1 := []; li_reserved2 := []; li_reserved3 := []; li_test_devices := []; li_use_yn := lit "N" |}.
Definition lib_line (d : string) : str := library_item_reconstruct (ex_lib (lit d)).
Example C59_example :
  library_parse (join_lines [lit "@admob"; lib_line "1"; lit "@compat"; lib_line "2"; lib_line "junk"; lit "@googleMap"; lib_line "3"; lit "@firebaseDB"; lib_line "4"; lit "@admob"; lib_line "5"]) =
    Ok {| l_firebase := ex_lib (lit "4"); l_compat := ex_lib (lit "2"); l_admob := ex_lib (lit "5"); l_google_map := ex_lib (lit "3") |} /\
  library_parse (join_lines [lit "@firebaseDB"; lib_line "1"; lit "@compat"; lib_line "2"; lit "@googleMap"; lib_line "3"]) = Err (MissingItem (lit "@admob")) /\
  library_parse (lit "@admob") = Err (EOFAfterHeader (lit "@admob")).
Proof. vm_compute. auto. Qed.

(** C60 *)
Theorem C60_view s v : view_parse s = Ok v <->
  exists es rest ls fs, view_entries (split_on NL s) es rest /\ no_header rest /\
    Forall2 lay_good (layouts_of es) ls /\ Forall2 fab_good (fabs_of es) fs /\ v = {| vw_layouts := keep_last ls; vw_fabs := keep_last fs |}.
Proof. exact (view_parse_ok s v). Qed.
Print Assumptions C60_view.
Theorem C60_view_error s e : view_parse s = Err e <->
  exists es rest ls fs, view_entries (split_on NL s) es rest /\ Forall2 lay_good (layouts_of es) ls /\ Forall2 fab_good (fabs_of es) fs /\
    view_error_at rest (N.of_nat (length (split_on NL s) - length rest) + 1) e.
Proof. exact (view_parse_err s e). Qed.
Print Assumptions C60_view_error.
Example C60_example :
  view_parse (join_lines [lit "@a.xml"; []; lit "@b.other"; lit "@c.xml"; []; lit "@a.xml"; []; lit "junk"; lit "@d.xml"]) =
    Ok {| vw_layouts := [(lit "c", []); (lit "a", [])]; vw_fabs := [] |} /\
  view_parse (join_lines [lit "@a.xml"; []; lit "@nodot"]) = Err (VInvalidHeader 3 (lit "@nodot")).
Proof. vm_compute. auto. Qed.

(** C61 *)
Theorem C61_logic mv s m : logic_parse mv s = Ok m <->
  exists secs rest, logic_sections_of (split_on NL s) secs rest /\ no_header rest /\ Forall section_ok secs /\ logic_of mv secs m.
Proof. exact (logic_exact_ok mv s m). Qed.
Print Assumptions C61_logic.
Theorem C61_logic_stop mv s o : logic_parse mv s = match o with Some e => Err e | None => Panic end <->
  exists secs rest, logic_sections_of (split_on NL s) secs rest /\ Forall section_ok secs /\ logic_stop (N.of_nat (length secs)) rest o.
Proof. exact (logic_exact_stop mv s o). Qed.
Print Assumptions C61_logic_stop.
Definition ex_var (t : variable_type) (n : string) : str * variable := (lit n, {| va_name := lit n; va_type := t |}).
Example C61_example :
  let text := map lit ["@A.java_var"; "0:x"; "1:y"; ""; "@B.java_var"; "1:z"; ""; "@A.java_var"; "1:x"; "0:w"; "0:x"; ""; "@A.java_go"; ""; "end"; "@B.java_go"]%string in
  let scr n v c := (lit n, {| sl_name := lit n; sl_block_containers := c; sl_variables := Some v; sl_list_variables := None; sl_components := None;
    sl_events := None; sl_more_blocks := None |}) in
  logic_parse true (join_lines text) =
    Ok [scr "B"%string [ex_var VtInteger "z"] []; scr "A"%string [ex_var VtBoolean "w"; ex_var VtBoolean "x"] [(lit "go", [])]] /\
  logic_parse true (join_lines (map lit ["@A.java_var"; "0:x"; ""; "@B.java_list"; "1:z"; "oops"]%string)) =
    Err (LListVariablePool (lit "B") 1 {| pe_count := 1; pe_content := lit "oops"; pe_source := LvMissingColon |}) /\
  logic_parse true (lit "@java_var") = Panic.
Proof. vm_compute. auto. Qed.

(** C62 *)
Theorem C62_project s p : project_parse s = Ok p <-> exists kvs, parse_json s = Some (JObj kvs) /\ project_read kvs p.
Proof. exact (project_exact s p). Qed.
Print Assumptions C62_project.
(** the order of the fields does not matter *)
Theorem C62_order s s' kvs kvs' p : parse_json s = Some (JObj kvs) -> parse_json s' = Some (JObj kvs') -> Permutation kvs kvs' ->
  project_parse s = Ok p <-> project_parse s' = Ok p.
Proof.
  intros H H' P. rewrite !project_parse_iff. split; intros (k & E & M).
  - rewrite H in E. assert (k = kvs) as -> by congruence. exists kvs'. split; auto. eapply project_meaning_perm; eauto.
  - rewrite H' in E. assert (k = kvs') as -> by congruence. exists kvs. split; auto. eapply project_meaning_perm; [apply Permutation_sym; eauto|auto].
Qed.
Print Assumptions C62_order.
(** a field with a name of its own changes nothing, if its value can be set aside *)
Theorem C62_unknown s s' pre k v post p : parse_json s = Some (JObj (pre ++ post)) -> parse_json s' = Some (JObj (pre ++ (Some k, v) :: post)) ->
  ~ In k project_names -> ~ In k colour_names -> SpecNumber.storable v -> project_parse s' = Ok p <-> project_parse s = Ok p.
Proof.
  intros H H' N1 N2 C. rewrite !project_parse_iff. split; intros (kvs & E & M).
  - rewrite H' in E. assert (kvs = pre ++ (Some k, v) :: post) as -> by congruence. exists (pre ++ post). split; auto. apply project_meaning_insert in M; auto.
  - rewrite H in E. assert (kvs = pre ++ post) as -> by congruence. eexists. split; [exact H'|]. now apply project_meaning_insert.
Qed.
Print Assumptions C62_unknown.
Definition ex_project_text (id : string) (extra : string) : str :=
  lit "{""sketchware_ver"":150,""color_accent"":-1,""color_primary"":-16740915,""sc_id"":""" ++ lit id ++
  lit """,""my_app_name"":""a"",""my_ws_name"":""w"",""my_sc_pkg_name"":""c.d"",""sc_ver_code"":""7"",""sc_ver_name"":""1.0"",""my_sc_reg_dt"":""20211112131415""" ++
  lit extra ++ lit ",""custom_icon"":false,""color_primary_dark"":0,""color_control_normal"":1,""color_control_highlight"":2}".
Definition ex_project : project :=
  {| pj_id := 601; pj_app_name := lit "a"; pj_workspace_name := lit "w"; pj_package_name := lit "c.d"; pj_version_code := 7; pj_version_name := lit "1.0";
     pj_date_created := 1636722855; pj_custom_icon := false;
     pj_palette := {| pal_primary := color_of_u32 4278226381; pal_primary_dark := color_of_u32 0; pal_accent := color_of_u32 0xFFFFFFFF;
                      pal_control_normal := color_of_u32 1; pal_control_highlight := color_of_u32 2 |}; pj_sketchware_version := 150 |}.
Example C62_example : project_parse (ex_project_text "601" "") = Ok ex_project /\
  project_parse (ex_project_text "601" ",""zzz"":[1,{""a"":null}]") = Ok ex_project /\
  project_parse (ex_project_text "601" ",""sc_id"":""601""") = Err tt /\ project_parse (ex_project_text "x" "") = Err tt.
Proof. vm_compute. auto. Qed.
(** 126 arrays inside one another can be set aside, 127 cannot; nor can 1e999 *)
Definition ex_nested (n : nat) : string := Nat.iter n (fun t => String.append "[" (String.append t "]")) "7"%string.
Example C62_example_deep : project_parse (ex_project_text "601" (String.append ",""zzz"":" (ex_nested 126))) = Ok ex_project /\
  project_parse (ex_project_text "601" (String.append ",""zzz"":" (ex_nested 127))) = Err tt /\
  project_parse (ex_project_text "601" ",""zzz"":1e999") = Err tt.
Proof. vm_compute. auto. Qed.

(** C63 *)
Theorem C63_roundtrip h : container_header_parse (container_header_reconstruct h) = Ok h <->
  ~ contains (lit ".java_") (ch_screen h) /\ ~ contains (lit ".java_") (ch_container h).
Proof.
  rewrite container_header_iff, !contains_no_java. unfold container_header_reconstruct. split.
  - intros (rest & E & N & P1 & P2). split; auto.
  - intros [N1 N2]. exists (ch_container h). split; [reflexivity|]. split; auto. split; auto.
Qed.
Print Assumptions C63_roundtrip.
Theorem C63_parse s h : container_header_parse s = Ok h <->
  exists rest, s = 64 :: ch_screen h ++ lit ".java_" ++ rest /\ ~ contains (lit ".java_") (ch_screen h) /\ ~ contains (lit ".java_") (ch_container h) /\
    (rest = ch_container h \/ exists d, rest = ch_container h ++ lit ".java_" ++ d).
Proof.
  rewrite container_header_iff. unfold first_piece. setoid_rewrite contains_no_java. reflexivity.
Qed.
Print Assumptions C63_parse.
Theorem C63_errors s e : container_header_parse s = Err e <->
  ((forall t, s <> 64 :: t) /\ e = DoesntStartWithAtSign) \/ ((exists t, s = 64 :: t) /\ ~ contains (lit ".java_") s /\ e = NoContainerName).
Proof. exact (container_header_err s e). Qed.
Print Assumptions C63_errors.
Example C63_example :
  container_header_parse (lit "@Main.java_b_onClick") = Ok {| ch_screen := lit "Main"; ch_container := lit "b_onClick" |} /\
  container_header_parse (lit "@A.java_b.java_c.java_") = Ok {| ch_screen := lit "A"; ch_container := lit "b" |} /\
  container_header_parse (lit "A.java_b") = Err DoesntStartWithAtSign /\ container_header_parse (lit "@A.jav_b") = Err NoContainerName.
Proof. vm_compute. auto. Qed.

(** C64: the line in an error. In [file] and [resource] it is the offending line, counted from 0. *)
Theorem C64_file_partial s n l : file_parse s = Err (FileItemParseError n l) ->
  nth_error (split_on NL s) (N.to_nat n) = Some l /\ file_item_parse l = None.
Proof. intros H. apply file_parse_err in H as (i & h & -> & ((L & _) & _) & B & _). rewrite Nat2N.id. auto. Qed.
Print Assumptions C64_file_partial.
Theorem C64_resource_partial s sec n : resource_parse s = Err (ResourceItemParseError sec n) ->
  exists h l, nth_error (split_on NL s) (N.to_nat n) = Some l /\ resource_item_parse l = None /\ governs res_headers (split_on NL s) (N.to_nat n) h /\ sec = rsec (Some h).
Proof. intros H. apply resource_parse_err in H as (i & h & l & -> & -> & ((L & _ & G) & _) & B & _). rewrite Nat2N.id. eauto 10. Qed.
Print Assumptions C64_resource_partial.
Lemma picks_suffix hs lines ps rest : library_picks hs lines ps rest -> exists pre, lines = pre ++ rest.
Proof.
  induction 1 as [rest|l r ps rest _ _ [pre ->]|h i r ps rest _ _ [pre ->]].
  - now exists [].
  - now exists (l :: pre).
  - now exists (h :: i :: pre).
Qed.
Lemma entries_suffix lines es rest : view_entries lines es rest -> exists pre, lines = pre ++ rest.
Proof.
  induction 1 as [rest|n body tail r es rest _ _ E _ [pre ->]|n l r es rest _ _ [pre ->]|n k r es rest _ _ _ _ [pre ->]].
  - now exists [].
  - destruct E as [[-> E]| ->].
    + apply app_eq_nil in E as [-> ->]. exists ((64 :: n ++ lit ".xml") :: body). cbn [app]. now rewrite app_nil_r.
    + exists ((64 :: n ++ lit ".xml") :: body ++ [] :: pre). cbn [app]. now rewrite <- app_assoc.
  - now exists ((64 :: n ++ lit ".xml_fab") :: l :: pre).
  - now exists ((64 :: n ++ 46 :: k) :: pre).
Qed.
Lemma suffix_nth {A} (pre rest : list A) k : nth_error (pre ++ rest) (length (pre ++ rest) - length rest + k) = nth_error rest k.
Proof. rewrite app_length. replace (length pre + length rest - length rest)%nat with (length pre) by lia. rewrite nth_error_app2 by lia. f_equal. lia. Qed.
(** In [library] it is never the offending line: it is too small by one, and by one more for every item before. *)
Theorem C64_library_refuted s h n : library_parse s = Err (LibraryItemParseError h n) ->
  exists k i, nth_error (split_on NL s) (N.to_nat n + k) = Some h /\ nth_error (split_on NL s) (N.to_nat n + k + 1) = Some i /\ library_item_parse i = None /\
    exists ps, length ps = k /\ library_picks lib_headers (firstn (N.to_nat n + k) (split_on NL s)) ps [].
Proof.
  intros H. apply library_parse_err in H as (ps & rest & P & _ & [(h' & E & _)|[(h' & i & r & E & -> & Hh & B)|(pre & h' & post & E & _)]]); try discriminate.
  injection E as -> En. pose proof (picks_len _ _ _ _ P) as L. destruct (picks_suffix _ _ _ _ P) as [pre E].
  assert (EL : (N.to_nat n + length ps = length pre)%nat).
  { rewrite En, Nat2N.id. rewrite E, app_length in *. cbn [length] in *. lia. }
  exists (length ps), i. rewrite EL. rewrite E. split; [rewrite nth_error_app2 by lia; now rewrite Nat.sub_diag|].
  split; [rewrite nth_error_app2 by lia; now replace (length pre + 1 - length pre)%nat with 1%nat by lia|]. split; auto.
  exists ps. split; auto. rewrite firstn_app, Nat.sub_diag, firstn_all. cbn [firstn]. rewrite app_nil_r. rewrite E in P.
  clear - P. remember (pre ++ h' :: i :: r) as lines eqn:EL. remember (h' :: i :: r) as rest eqn:ER. revert pre EL. induction P as [rest|l q ps rest N P0 IH|h0 i0 q ps rest N P IH]; intros pre EL.
  - destruct pre; [constructor|]. apply (f_equal (@length str)) in EL. rewrite app_length in EL. cbn in EL. lia.
  - destruct pre as [|x pre]; cbn [app] in EL.
    + exfalso. destruct (picks_suffix _ _ _ _ P0) as [p' E']. apply (f_equal (@length str)) in EL, E'. rewrite app_length in E'. cbn in *. lia.
    + injection EL as <- EL. apply lp_other; auto.
  - destruct (picks_suffix _ _ _ _ P) as [p' E']. destruct pre as [|x [|y pre]]; cbn [app] in EL.
    + exfalso. apply (f_equal (@length str)) in EL, E'. rewrite app_length in E'. cbn in *. lia.
    + exfalso. apply (f_equal (@length str)) in EL, E'. rewrite app_length in E'. cbn in *. lia.
    + injection EL as <- <- EL. apply lp_item; auto.
Qed.
Print Assumptions C64_library_refuted.
(** In [view] a bad header is reported with its line, counted from 1; a bad floating button is reported with its line, but
    the content in the error is its header, not the line. *)
Theorem C64_view_partial s n c : view_parse s = Err (VInvalidHeader n c) -> exists i, n = N.of_nat i + 1 /\ nth_error (split_on NL s) i = Some c.
Proof.
  intros H. apply view_parse_err in H as (es & rest & ls & fs & V & _ & _ & [(t & r & -> & _ & E)|[(?&?&?&?&?&_&_&_&_&_&_&E)|[(?&?&?&_&_&_&E)|(?&_&_&E)]]]); try discriminate.
  injection E as -> ->. destruct (entries_suffix _ _ _ V) as [pre EP]. rewrite EP. eexists. split; [reflexivity|].
  pose proof (suffix_nth pre ((64 :: t) :: r) 0) as S. rewrite Nat.add_0_r in S. exact S.
Qed.
Print Assumptions C64_view_partial.
Theorem C64_view_fab_refuted s name n c : view_parse s = Err (VFabParseError name n c) ->
  exists i bad, n = N.of_nat i + 2 /\ nth_error (split_on NL s) (i + 1) = Some bad /\ view_line_parse bad = None /\
    nth_error (split_on NL s) i = Some c /\ c = 64 :: name ++ lit ".xml_fab".
Proof.
  intros H. apply view_parse_err in H as (es & rest & ls & fs & V & _ & _ & [(t & r & -> & _ & E)|[(?&?&?&?&?&_&_&_&_&_&_&E)|[(nm&bad&r& -> &_&B&E)|(?&_&_&E)]]]); try discriminate.
  injection E as -> -> ->. destruct (entries_suffix _ _ _ V) as [pre EP]. rewrite EP. 
  exists (Nat.sub (length (pre ++ (64 :: nm ++ lit ".xml_fab") :: bad :: r)) (length ((64 :: nm ++ lit ".xml_fab") :: bad :: r))), bad.
  split; [rewrite <- N.add_assoc; reflexivity|]. split; [exact (suffix_nth pre ((64 :: nm ++ lit ".xml_fab") :: bad :: r) 1)|]. split; auto. pose proof (suffix_nth pre ((64 :: nm ++ lit ".xml_fab") :: bad :: r) 0) as S. rewrite Nat.add_0_r in S. split; [exact S|reflexivity].
Qed.
Print Assumptions C64_view_fab_refuted.
(** In [logic] it is the number of the sections before, not a line of the file. *)
Theorem C64_logic_refuted : exists s nm n src l, logic_parse true s = Err (LVariablePool nm n src) /\
  nth_error (split_on NL s) (N.to_nat n) = Some l /\ (exists v, variable_parse l = Ok v) /\
  nth_error (split_on NL s) 4 = Some (pe_content src) /\ n = 1.
Proof.
  exists (join_lines (map lit ["@A.java_var"; "0:x"; ""; "@B.java_var"; "oops"]%string)), (lit "B"), 1, {| pe_count := 0; pe_content := lit "oops"; pe_source := MalformedVariable (lit "oops") |}, (lit "0:x").
  split; [vm_compute; reflexivity|]. split; [reflexivity|]. split; [|split; reflexivity]. eexists. vm_compute. reflexivity.
Qed.
Print Assumptions C64_logic_refuted.
Example C64_example :
  library_parse (join_lines [lit "@admob"; lib_line "1"; lit "@compat"; lit "oops"]) = Err (LibraryItemParseError (lit "@compat") 1) /\
  view_parse (join_lines [lit "@a.xml_fab"; lit "oops"]) = Err (VFabParseError (lit "a") 2 (lit "@a.xml_fab")).
Proof. vm_compute. auto. Qed.
