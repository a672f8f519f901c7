(** Properties C11, C16-C19 (file, library, resource), C49 (resource files), C54 (number text). *)
From Coq Require Import Permutation.
From Verif Require Import Base Str Spec Dec Flt FltProofs NumberStdProofs Json M_File M_Library M_Resource FileProofs LibraryProofs
  M_Raw ResFilesProofs.

(** C11; [lib_type] and [res_type] are u8 fields *)
Theorem C11_file_item x : file_item_parse (file_item_reconstruct x) = Some x.
Proof. apply file_item_rt. Qed.
Print Assumptions C11_file_item.
Theorem C11_library_item x : li_lib_type x < 256 -> library_item_parse (library_item_reconstruct x) = Some x.
Proof. intros H. apply library_item_rt. lia. Qed.
Print Assumptions C11_library_item.
Theorem C11_resource_item x : ri_type x < 256 -> resource_item_parse (resource_item_reconstruct x) = Some x.
Proof. intros H. apply resource_item_rt. lia. Qed.
Print Assumptions C11_resource_item.
Definition ex_file_item : file_item :=
  {| fi_filename := lit "ma""in\" ++ [10; 0x1F600]; fi_type := FtDrawer; fi_keyboard := KbHidden;
     fi_options := {| ao_toolbar := true; ao_fullscreen := false; ao_drawer := true; ao_fab := true |};
     fi_orientation := OrLandscape; fi_theme := ThNone |}.
Definition ex_library_item : library_item :=
  {| li_ad_units := [{| au_id := lit "i"; au_name := lit "n""" |}]; li_data := lit "d"; li_lib_type := 255; li_reserved1 := [];
     li_reserved2 := [9]; li_reserved3 := lit "x"; li_test_devices := [lit "a"; lit "b"]; li_use_yn := lit "Y" |}.
Example C11_example :
  file_item_reconstruct ex_file_item =
    lit "{""fileName"":""ma\""in\\\n" ++ [0x1F600] ++ lit """,""fileType"":2,""keyboardSetting"":2,""options"":13,""orientation"":1,""theme"":-1}" /\
  file_item_parse (file_item_reconstruct ex_file_item) = Some ex_file_item /\
  library_item_parse (library_item_reconstruct ex_library_item) = Some ex_library_item /\
  resource_item_parse (lit " { ""resType"" : 7, ""resName"":""a"",""zzz"":[1,{}], ""resFullName"":""bA"" }") =
    Some {| ri_full_name := lit "bA"; ri_name := lit "a"; ri_type := 7 |}.
Proof. vm_compute. auto. Qed.

(** C16. The full claim [forall f, file_parse (file_reconstruct f) = Ok f] fails exactly when there
    are custom views but no activities: *)
Theorem C16_roundtrip_partial f : f_activities f <> [] \/ f_custom_views f = [] ->
  file_parse (file_reconstruct f) = Ok f.
Proof.
  intros H. destruct (f_activities f) as [|a l] eqn:E.
  - destruct H as [H|H]; [congruence|]. rewrite file_rt_empty by auto. destruct f; cbn in *; congruence.
  - apply file_rt. congruence.
Qed.
Print Assumptions C16_roundtrip_partial.
Theorem C16_refuted f : f_activities f = [] -> f_custom_views f <> [] ->
  file_parse (file_reconstruct f) = Ok {| f_activities := []; f_custom_views := [] |} /\
  file_parse (file_reconstruct f) <> Ok f.
Proof. intros H H2. rewrite file_rt_empty by auto. split; auto. intros [= E]. apply H2. now rewrite <- E. Qed.
Print Assumptions C16_refuted.
Example C16_example :
  file_parse (file_reconstruct {| f_activities := [ex_file_item; ex_file_item]; f_custom_views := [ex_file_item] |}) =
    Ok {| f_activities := [ex_file_item; ex_file_item]; f_custom_views := [ex_file_item] |} /\
  file_parse (file_reconstruct {| f_activities := []; f_custom_views := [ex_file_item] |}) =
    Ok {| f_activities := []; f_custom_views := [] |}.
Proof. vm_compute. auto. Qed.

(** C17 *)
Theorem C17_roundtrip l :
  (forall s, li_lib_type (lib_field s l) < 256) -> library_parse (library_reconstruct l) = Ok l.
Proof.
  intros H. apply library_rt. unfold lib_ok.
  pose proof (H LFirebase). pose proof (H LCompat). pose proof (H LAdmob). pose proof (H LGoogleMap). cbn [lib_field] in *. lia.
Qed.
Print Assumptions C17_roundtrip.
Definition ex_library : library :=
  {| l_firebase := ex_library_item; l_compat := ex_library_item;
     l_admob := {| li_ad_units := []; li_data := []; li_lib_type := 0; li_reserved1 := lit "@compat"; li_reserved2 := [];
                   li_reserved3 := [10]; li_test_devices := []; li_use_yn := lit "N" |};
     l_google_map := ex_library_item |}.
Example C17_example : library_parse (library_reconstruct ex_library) = Ok ex_library.
Proof. vm_compute. auto. Qed.

(** C18 *)
Theorem C18_roundtrip r :
  Forall (fun i => ri_type i < 256) (rs_images r ++ rs_sounds r ++ rs_fonts r) ->
  resource_parse (resource_reconstruct r) = Ok r.
Proof.
  intros H. apply Forall_app in H as [H1 H]. apply Forall_app in H as [H2 H3].
  apply resource_rt. split; [|split]; eapply Forall_impl; try eassumption; cbn; intros; lia.
Qed.
Print Assumptions C18_roundtrip.
Example C18_example :
  let i := {| ri_full_name := lit "a.png"; ri_name := lit "a"; ri_type := 1 |} in
  let r1 := {| rs_images := [i; i]; rs_sounds := []; rs_fonts := [i] |} in
  let r2 := {| rs_images := []; rs_sounds := [i]; rs_fonts := [] |} in
  resource_parse (resource_reconstruct r1) = Ok r1 /\ resource_parse (resource_reconstruct r2) = Ok r2.
Proof. vm_compute. auto. Qed.

(** C19: any sequence of foreign lines and sections in which the last section of each slot holds the
    library's item *)
Theorem C19_order_and_foreign_lines chunks l : Forall chunk_ok chunks ->
  (forall s, exists earlier, items_of s chunks = earlier ++ [lib_field s l]) ->
  library_parse (lib_text chunks) = Ok l.
Proof. apply library_parse_chunks. Qed.
Print Assumptions C19_order_and_foreign_lines.
Theorem C19_missing_header s text : ~ In (lib_header s) (split_on NL text) -> exists e, library_parse text = Err e.
Proof. apply library_missing. Qed.
Print Assumptions C19_missing_header.
Example C19_example :
  let it := library_item_reconstruct ex_library_item in
  let chunks := [Foreign (lit "hello"); Section_ LGoogleMap it ex_library_item; Foreign []; Section_ LCompat it ex_library_item;
                 Section_ LAdmob it ex_library_item; Foreign (lit " @admob");
                 Section_ LAdmob (library_item_reconstruct (l_admob ex_library)) (l_admob ex_library);
                 Section_ LFirebase it ex_library_item] in
  Forall chunk_ok chunks /\ (forall s, exists earlier, items_of s chunks = earlier ++ [lib_field s ex_library]) /\
  library_parse (lib_text chunks) = Ok ex_library.
Proof.
  cbv zeta. split; [|split; [|vm_compute; reflexivity]].
  - assert (N : forall x, ~ In NL (library_item_reconstruct x)) by (intros; apply LinesProofs.clean_no_nl, library_item_clean).
    repeat (apply Forall_cons; [cbn [chunk_ok]; first [split; [apply N|vm_compute; reflexivity]|
      split; [LinesProofs.nonl|intros []; vm_compute; discriminate]]|]). constructor.
  - intros []; cbn; try (now exists []). exists [ex_library_item]. reflexivity.
Qed.

(** C49 *)
Theorem C49_accepts_exactly_classified ex ws :
  ((exists r, res_files_try_from ex ws = Ok r) <-> Forall (fun w => exists t n, wrapper_class ex w t n) ws) /\
  res_files_try_from ex ws <> Panic.
Proof. split; [apply rf_collect_defined|apply rf_collect_nopanic]. Qed.
Print Assumptions C49_accepts_exactly_classified.
Theorem C49_filed_under_type_and_name ex ws r : res_files_try_from ex ws = Ok r ->
  (forall t n w, t <> RCustomIcon -> (sget n (rf_of t r) = Some w <-> is_last (fun w => wrapper_class ex w t n) ws w)) /\
  (forall w, rf_custom_icon r = Some w <-> is_last (fun w => exists n, wrapper_class ex w RCustomIcon n) ws w).
Proof. intros H. apply collect_filed in H as (A & B & _). auto. Qed.
Print Assumptions C49_filed_under_type_and_name.
(** turning back into a list, for every iteration order of the hash maps *)
Theorem C49_back_to_list ex ws r out : res_files_try_from ex ws = Ok r -> res_files_into r out ->
  (forall w, In w out <->
    (exists n, is_last (fun w => wrapper_class ex w RImage n) ws w) \/
    (exists n, is_last (fun w => wrapper_class ex w RSound n) ws w) \/
    (exists n, is_last (fun w => wrapper_class ex w RFont n) ws w) \/
    is_last (fun w => exists n, wrapper_class ex w RCustomIcon n) ws w) /\
  (forall w, In w out -> In w ws).
Proof.
  intros H (im & so & fo & Pi & Ps & Pf & ->). apply collect_filed in H as (A & B & C).
  assert (K : forall w, In w ((match rf_custom_icon r with Some w => [w] | None => [] end) ++ im ++ so ++ fo) <->
    (exists n, is_last (fun w => wrapper_class ex w RImage n) ws w) \/
    (exists n, is_last (fun w => wrapper_class ex w RSound n) ws w) \/
    (exists n, is_last (fun w => wrapper_class ex w RFont n) ws w) \/
    is_last (fun w => exists n, wrapper_class ex w RCustomIcon n) ws w).
  { intros w. rewrite !in_app_iff. 
    assert (Ic : In w (match rf_custom_icon r with Some w => [w] | None => [] end) <-> rf_custom_icon r = Some w).
    { destruct (rf_custom_icon r); cbn; split; try tauto; try discriminate.
      - intros [->|[]]; auto.
      - intros [= ->]. auto. }
    rewrite Ic, B.
    assert (Q : forall t l, t <> RCustomIcon -> Permutation l (map snd (rf_of t r)) ->
       (In w l <-> exists n, is_last (fun w => wrapper_class ex w t n) ws w)).
    { intros t l Ht P. transitivity (In w (map snd (rf_of t r))).
      - split; apply Permutation_in; auto. now apply Permutation_sym.
      - rewrite in_vals by auto. split; intros [n E]; exists n; apply A; auto. }
    rewrite (Q RImage im), (Q RSound so), (Q RFont fo) by (auto; discriminate). tauto. }
  split; auto. intros w Hw. apply K in Hw.
  destruct Hw as [[n L]|[[n L]|[[n L]|L]]]; destruct L as (a & b & -> & _ & _); apply in_or_app; right; now left.
Qed.
Print Assumptions C49_back_to_list.
Example C49_example :
  let ex := fun _ => true in
  let ws := [WPath (lit "/a/images/601/x.png"); WStringId (lit "i") (lit "x.png") RSound;
             WU32Id 3 (lit "x.png") RImage; WPath (lit "icons/601/icon.png")] in
  wrapper_class ex (WPath (lit "/a/images/601/x.png")) RImage (lit "x.png") /\
  res_files_try_from ex ws =
    Ok {| rf_custom_icon := Some (WPath (lit "icons/601/icon.png"));
          rf_images := [(lit "x.png", WU32Id 3 (lit "x.png") RImage)];
          rf_sounds := [(lit "x.png", WStringId (lit "i") (lit "x.png") RSound)]; rf_fonts := [] |} /\
  res_files_try_from ex [WPath (lit "/a/other/601/x.png")] = Err (InvalidPath (lit "/a/other/601/x.png")) /\
  res_files_try_from (fun _ => false) ws = Err (FileDoesntExist (lit "/a/images/601/x.png")).
Proof.
  cbv zeta. split; [|vm_compute; auto].
  apply (wc_path _ _ [RootDir; Normal (lit "a")] (lit "images") (Normal (lit "601"))); [reflexivity|vm_compute; reflexivity|discriminate|cbn; auto].
Qed.

(** C54 *)
Theorem C54_unsigned n :
  (n < 2 ^ 8 -> parse_u8 (dec_of_N n) = Some n) /\ (n < 2 ^ 16 -> parse_u16 (dec_of_N n) = Some n) /\
  (n < 2 ^ 32 -> parse_u32 (dec_of_N n) = Some n).
Proof.
  split; [|split]; intros H; apply parse_uint_dec; unfold U8MAX, U16MAX, U32MAX; lia.
Qed.
Print Assumptions C54_unsigned.
Theorem C54_i32 z : (-2 ^ 31 <= z < 2 ^ 31)%Z -> parse_i32 (dec_of_Z z) = Some z.
Proof. intros H. apply parse_int_dec. cbn. lia. Qed.
Print Assumptions C54_i32.
(** [canonical F64] holds of exactly the f64 values (zeros, infinities, NaN, subnormals, normals) *)
Theorem C54_f64 x : canonical F64 x = true -> parse_f64 (display_f64 x) = Some x.
Proof. apply parse_display_f64. Qed.
Print Assumptions C54_f64.
Example C54_example : parse_i32 (dec_of_Z (-2147483648)) = Some (-2147483648)%Z /\
  dec_of_N 4294967295 = lit "4294967295" /\
  display_f64 (FFin true 7205759403792794 (-56)) = lit "-0.1" /\ canonical F64 (FFin true 7205759403792794 (-56)) = true.
Proof. vm_compute. auto. Qed.
