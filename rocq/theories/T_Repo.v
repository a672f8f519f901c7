(** The tests of /repo/tests, transcribed by tools/gen_tests.py: the model gives the results that the authors of the
    program wrote down. (They are tests of the model, not proofs about all inputs.) *)
From Verif Require Import Base Str Dec Json Recs M_Color M_File M_Library M_Resource M_Logic M_View A_Block A_Screen A_Project.
Local Open Scope N_scope.

Definition text (l : list string) : str := join NL (map lit l).
Definition is_ok {E A} (r : res E A) : bool := match r with Ok _ => true | _ => false end.
Definition is_some {A} (o : option A) : bool := match o with Some _ => true | None => false end.
(** for the long texts: [trim] with a reversal that takes linear time *)
Definition fast_trim (t : str) : str := rev' (trim_start (rev' (trim_start t))).
Lemma rev_rev' {A} (l : list A) : rev' l = rev l.
Proof. unfold rev'. now rewrite <- rev_alt. Qed.
Lemma fast_trim_eq t : fast_trim t = trim t.
Proof. unfold fast_trim, trim, trim_end. now rewrite !rev_rev'. Qed.
Definition fast_layout (l : layout) : str := fast_trim (fold_left (fun acc v => acc ++ view_line_reconstruct v ++ [NL]) l []).
Definition fast_view (v : view) : str :=
  rev' (trim_start (rev'
    (concat (map (fun kv => [AT] ++ fst kv ++ lit ".xml" ++ [NL] ++ fast_layout (snd kv) ++ [NL]) (vw_layouts v)) ++
     [NL] ++
     concat (map (fun kv => [AT] ++ fst kv ++ lit ".xml_fab" ++ [NL] ++ view_line_reconstruct (snd kv) ++ [NL]) (vw_fabs v))))).
Lemma fast_view_eq v : fast_view v = view_reconstruct v.
Proof.
  unfold fast_view, view_reconstruct, trim_end. rewrite !rev_rev'. do 4 f_equal.
  f_equal. apply map_ext. intros. unfold fast_layout. now rewrite fast_trim_eq.
Qed.
Lemma view_test t : rmap fast_view (view_parse t) = Ok t -> rmap view_reconstruct (view_parse t) = Ok t.
Proof. destruct (view_parse t); cbn; auto. now rewrite fast_view_eq. Qed.

(** tests/file_parser.rs L4 [parse_file_item] *)
Example t_file_parser_parse_file_item :
  file_item_parse (lit "{""fileName"":""main"",""fileType"":0,""keyboardSetting"":0,""options"":0,""orientation"":2,""theme"":-1}") =
  Some {| fi_filename := (lit "main"); fi_type := FtActivity; fi_keyboard := KbUnspecified;
     fi_options := {| ao_toolbar := false; ao_fullscreen := false; ao_drawer := false; ao_fab := false |};
     fi_orientation := OrBoth; fi_theme := ThNone |}.
Proof. vm_compute. reflexivity. Qed.

(** tests/file_parser.rs L29 [parse_file] *)
Example t_file_parser_parse_file :
  file_parse (text ["@activity";
    "{""fileName"":""main"",""fileType"":0,""keyboardSetting"":0,""options"":0,""orientation"":2,""theme"":-1}";
    "{""fileName"":""deviceinfo"",""fileType"":0,""keyboardSetting"":0,""options"":5,""orientation"":2,""theme"":-1}";
    "{""fileName"":""about"",""fileType"":0,""keyboardSetting"":0,""options"":0,""orientation"":2,""theme"":-1}";
    "{""fileName"":""speaker_cleaner"",""fileType"":0,""keyboardSetting"":0,""options"":0,""orientation"":0,""theme"":-1}";
    "{""fileName"":""tools"",""fileType"":0,""keyboardSetting"":0,""options"":0,""orientation"":2,""theme"":-1}";
    "{""fileName"":""display_test"",""fileType"":0,""keyboardSetting"":2,""options"":2,""orientation"":2,""theme"":-1}";
    "@customview";
    "{""fileName"":""_drawer_deviceinfo"",""fileType"":2,""keyboardSetting"":0,""options"":0,""orientation"":2,""theme"":-1}";
    "{""fileName"":""design_3"",""fileType"":1,""keyboardSetting"":0,""options"":0,""orientation"":2,""theme"":-1}"]%string) =
  Ok {| f_activities := [{| fi_filename := (lit "main"); fi_type := FtActivity; fi_keyboard := KbUnspecified;
     fi_options := {| ao_toolbar := false; ao_fullscreen := false; ao_drawer := false; ao_fab := false |};
     fi_orientation := OrBoth; fi_theme := ThNone |};
   {| fi_filename := (lit "deviceinfo"); fi_type := FtActivity; fi_keyboard := KbUnspecified;
     fi_options := {| ao_toolbar := true; ao_fullscreen := false; ao_drawer := true; ao_fab := false |};
     fi_orientation := OrBoth; fi_theme := ThNone |};
   {| fi_filename := (lit "about"); fi_type := FtActivity; fi_keyboard := KbUnspecified;
     fi_options := {| ao_toolbar := false; ao_fullscreen := false; ao_drawer := false; ao_fab := false |};
     fi_orientation := OrBoth; fi_theme := ThNone |};
   {| fi_filename := (lit "speaker_cleaner"); fi_type := FtActivity; fi_keyboard := KbUnspecified;
     fi_options := {| ao_toolbar := false; ao_fullscreen := false; ao_drawer := false; ao_fab := false |};
     fi_orientation := OrPortrait; fi_theme := ThNone |};
   {| fi_filename := (lit "tools"); fi_type := FtActivity; fi_keyboard := KbUnspecified;
     fi_options := {| ao_toolbar := false; ao_fullscreen := false; ao_drawer := false; ao_fab := false |};
     fi_orientation := OrBoth; fi_theme := ThNone |};
   {| fi_filename := (lit "display_test"); fi_type := FtActivity; fi_keyboard := KbHidden;
     fi_options := {| ao_toolbar := false; ao_fullscreen := true; ao_drawer := false; ao_fab := false |};
     fi_orientation := OrBoth; fi_theme := ThNone |}];
   f_custom_views := [{| fi_filename := (lit "_drawer_deviceinfo"); fi_type := FtDrawer; fi_keyboard := KbUnspecified;
     fi_options := {| ao_toolbar := false; ao_fullscreen := false; ao_drawer := false; ao_fab := false |};
     fi_orientation := OrBoth; fi_theme := ThNone |};
   {| fi_filename := (lit "design_3"); fi_type := FtCustomView; fi_keyboard := KbUnspecified;
     fi_options := {| ao_toolbar := false; ao_fullscreen := false; ao_drawer := false; ao_fab := false |};
     fi_orientation := OrBoth; fi_theme := ThNone |}] |}.
Proof. vm_compute. reflexivity. Qed.

(** tests/file_parser.rs L121 [reconstruct_file_item] *)
Example t_file_parser_reconstruct_file_item :
  file_item_reconstruct {| fi_filename := (lit "main"); fi_type := FtActivity; fi_keyboard := KbUnspecified;
     fi_options := {| ao_toolbar := false; ao_fullscreen := false; ao_drawer := false; ao_fab := false |};
     fi_orientation := OrBoth; fi_theme := ThNone |} =
  (lit "{""fileName"":""main"",""fileType"":0,""keyboardSetting"":0,""options"":0,""orientation"":2,""theme"":-1}").
Proof. vm_compute. reflexivity. Qed.

(** tests/file_parser.rs L147 [reconstruct_file] *)
Example t_file_parser_reconstruct_file :
  file_reconstruct {| f_activities := [{| fi_filename := (lit "main"); fi_type := FtActivity; fi_keyboard := KbUnspecified;
     fi_options := {| ao_toolbar := false; ao_fullscreen := false; ao_drawer := false; ao_fab := false |};
     fi_orientation := OrBoth; fi_theme := ThNone |};
   {| fi_filename := (lit "deviceinfo"); fi_type := FtActivity; fi_keyboard := KbUnspecified;
     fi_options := {| ao_toolbar := true; ao_fullscreen := false; ao_drawer := true; ao_fab := false |};
     fi_orientation := OrBoth; fi_theme := ThNone |};
   {| fi_filename := (lit "about"); fi_type := FtActivity; fi_keyboard := KbUnspecified;
     fi_options := {| ao_toolbar := false; ao_fullscreen := false; ao_drawer := false; ao_fab := false |};
     fi_orientation := OrBoth; fi_theme := ThNone |};
   {| fi_filename := (lit "speaker_cleaner"); fi_type := FtActivity; fi_keyboard := KbUnspecified;
     fi_options := {| ao_toolbar := false; ao_fullscreen := false; ao_drawer := false; ao_fab := false |};
     fi_orientation := OrPortrait; fi_theme := ThNone |};
   {| fi_filename := (lit "tools"); fi_type := FtActivity; fi_keyboard := KbUnspecified;
     fi_options := {| ao_toolbar := false; ao_fullscreen := false; ao_drawer := false; ao_fab := false |};
     fi_orientation := OrBoth; fi_theme := ThNone |};
   {| fi_filename := (lit "display_test"); fi_type := FtActivity; fi_keyboard := KbHidden;
     fi_options := {| ao_toolbar := false; ao_fullscreen := true; ao_drawer := false; ao_fab := false |};
     fi_orientation := OrBoth; fi_theme := ThNone |}];
   f_custom_views := [{| fi_filename := (lit "_drawer_deviceinfo"); fi_type := FtDrawer; fi_keyboard := KbUnspecified;
     fi_options := {| ao_toolbar := false; ao_fullscreen := false; ao_drawer := false; ao_fab := false |};
     fi_orientation := OrBoth; fi_theme := ThNone |};
   {| fi_filename := (lit "design_3"); fi_type := FtCustomView; fi_keyboard := KbUnspecified;
     fi_options := {| ao_toolbar := false; ao_fullscreen := false; ao_drawer := false; ao_fab := false |};
     fi_orientation := OrBoth; fi_theme := ThNone |}] |} =
  (text ["@activity";
    "{""fileName"":""main"",""fileType"":0,""keyboardSetting"":0,""options"":0,""orientation"":2,""theme"":-1}";
    "{""fileName"":""deviceinfo"",""fileType"":0,""keyboardSetting"":0,""options"":5,""orientation"":2,""theme"":-1}";
    "{""fileName"":""about"",""fileType"":0,""keyboardSetting"":0,""options"":0,""orientation"":2,""theme"":-1}";
    "{""fileName"":""speaker_cleaner"",""fileType"":0,""keyboardSetting"":0,""options"":0,""orientation"":0,""theme"":-1}";
    "{""fileName"":""tools"",""fileType"":0,""keyboardSetting"":0,""options"":0,""orientation"":2,""theme"":-1}";
    "{""fileName"":""display_test"",""fileType"":0,""keyboardSetting"":2,""options"":2,""orientation"":2,""theme"":-1}";
    "@customview";
    "{""fileName"":""_drawer_deviceinfo"",""fileType"":2,""keyboardSetting"":0,""options"":0,""orientation"":2,""theme"":-1}";
    "{""fileName"":""design_3"",""fileType"":1,""keyboardSetting"":0,""options"":0,""orientation"":2,""theme"":-1}"]%string).
Proof. vm_compute. reflexivity. Qed.

(** tests/resource_parser.rs L4 [parse_resource_item] *)
Example t_resource_parser_parse_resource_item :
  resource_item_parse (lit "{""resFullName"":""my_img.png"",""resName"":""my_img"",""resType"":1}") =
  Some {| ri_full_name := (lit "my_img.png"); ri_name := (lit "my_img"); ri_type := 1 |}.
Proof. vm_compute. reflexivity. Qed.

(** tests/resource_parser.rs L21 [parse_resource] *)
Example t_resource_parser_parse_resource :
  resource_parse (text ["@images";
    "{""resFullName"":""ic_developer_mode_white.png"",""resName"":""ic_developer_mode_white"",""resType"":1}";
    "{""resFullName"":""ic_info_outline_white.png"",""resName"":""ic_info_outline_white"",""resType"":1}";
    "{""resFullName"":""ic_smartphone_white.png"",""resName"":""ic_smartphone_white"",""resType"":1}";
    "@sounds";
    "{""resFullName"":""speaker_cleaner.mp3"",""resName"":""speaker_cleaner"",""resType"":1}";
    "@fonts";
    "{""resFullName"":""font_regular.ttf"",""resName"":""font_regular"",""resType"":1}";
    "{""resFullName"":""font_light.ttf"",""resName"":""font_light"",""resType"":1}"]%string) =
  Ok {| rs_images := [{| ri_full_name := (lit "ic_developer_mode_white.png"); ri_name := (lit "ic_developer_mode_white"); ri_type := 1 |};
   {| ri_full_name := (lit "ic_info_outline_white.png"); ri_name := (lit "ic_info_outline_white"); ri_type := 1 |};
   {| ri_full_name := (lit "ic_smartphone_white.png"); ri_name := (lit "ic_smartphone_white"); ri_type := 1 |}];
   rs_sounds := [{| ri_full_name := (lit "speaker_cleaner.mp3"); ri_name := (lit "speaker_cleaner"); ri_type := 1 |}];
   rs_fonts := [{| ri_full_name := (lit "font_regular.ttf"); ri_name := (lit "font_regular"); ri_type := 1 |};
   {| ri_full_name := (lit "font_light.ttf"); ri_name := (lit "font_light"); ri_type := 1 |}] |}.
Proof. vm_compute. reflexivity. Qed.

(** tests/resource_parser.rs L81 [reconstruct_resource_item] *)
Example t_resource_parser_reconstruct_resource_item :
  resource_item_reconstruct {| ri_full_name := (lit "my_img.png"); ri_name := (lit "my_img"); ri_type := 1 |} =
  (lit "{""resFullName"":""my_img.png"",""resName"":""my_img"",""resType"":1}").
Proof. vm_compute. reflexivity. Qed.

(** tests/resource_parser.rs L99 [reconstruct_resource] *)
Example t_resource_parser_reconstruct_resource :
  resource_reconstruct {| rs_images := [{| ri_full_name := (lit "ic_developer_mode_white.png"); ri_name := (lit "ic_developer_mode_white"); ri_type := 1 |};
   {| ri_full_name := (lit "ic_info_outline_white.png"); ri_name := (lit "ic_info_outline_white"); ri_type := 1 |};
   {| ri_full_name := (lit "ic_smartphone_white.png"); ri_name := (lit "ic_smartphone_white"); ri_type := 1 |}];
   rs_sounds := [{| ri_full_name := (lit "speaker_cleaner.mp3"); ri_name := (lit "speaker_cleaner"); ri_type := 1 |}];
   rs_fonts := [{| ri_full_name := (lit "font_regular.ttf"); ri_name := (lit "font_regular"); ri_type := 1 |};
   {| ri_full_name := (lit "font_light.ttf"); ri_name := (lit "font_light"); ri_type := 1 |}] |} =
  (text ["@images";
    "{""resFullName"":""ic_developer_mode_white.png"",""resName"":""ic_developer_mode_white"",""resType"":1}";
    "{""resFullName"":""ic_info_outline_white.png"",""resName"":""ic_info_outline_white"",""resType"":1}";
    "{""resFullName"":""ic_smartphone_white.png"",""resName"":""ic_smartphone_white"",""resType"":1}";
    "@sounds";
    "{""resFullName"":""speaker_cleaner.mp3"",""resName"":""speaker_cleaner"",""resType"":1}";
    "@fonts";
    "{""resFullName"":""font_regular.ttf"",""resName"":""font_regular"",""resType"":1}";
    "{""resFullName"":""font_light.ttf"",""resName"":""font_light"",""resType"":1}"]%string).
Proof. vm_compute. reflexivity. Qed.

(** tests/library_parser.rs L6 [parse_library_item] *)
Example t_library_parser_parse_library_item :
  library_item_parse (lit "{""adUnits"":[],""data"":"""",""libType"":0,""reserved1"":"""",""reserved2"":"""",""reserved3"":"""",""testDevices"":[],""useYn"":""N""}") =
  Some {| li_ad_units := []; li_data := (lit ""); li_lib_type := 0; li_reserved1 := (lit "");
     li_reserved2 := (lit ""); li_reserved3 := (lit ""); li_test_devices := []; li_use_yn := (lit "N") |}.
Proof. vm_compute. reflexivity. Qed.

(** tests/library_parser.rs L28 [parse_library] *)
Example t_library_parser_parse_library :
  library_parse (text ["@firebaseDB";
    "{""adUnits"":[],""data"":"""",""libType"":0,""reserved1"":"""",""reserved2"":"""",""reserved3"":"""",""testDevices"":[],""useYn"":""N""}";
    "@compat";
    "{""adUnits"":[],""data"":"""",""libType"":1,""reserved1"":"""",""reserved2"":"""",""reserved3"":"""",""testDevices"":[],""useYn"":""Y""}";
    "@admob";
    "{""adUnits"":[],""data"":"""",""libType"":2,""reserved1"":"""",""reserved2"":"""",""reserved3"":"""",""testDevices"":[],""useYn"":""N""}";
    "@googleMap";
    "{""adUnits"":[],""data"":"""",""libType"":3,""reserved1"":"""",""reserved2"":"""",""reserved3"":"""",""testDevices"":[],""useYn"":""N""}"]%string) =
  Ok {| l_firebase := {| li_ad_units := []; li_data := (lit ""); li_lib_type := 0; li_reserved1 := (lit "");
     li_reserved2 := (lit ""); li_reserved3 := (lit ""); li_test_devices := []; li_use_yn := (lit "N") |};
   l_compat := {| li_ad_units := []; li_data := (lit ""); li_lib_type := 1; li_reserved1 := (lit "");
     li_reserved2 := (lit ""); li_reserved3 := (lit ""); li_test_devices := []; li_use_yn := (lit "Y") |};
   l_admob := {| li_ad_units := []; li_data := (lit ""); li_lib_type := 2; li_reserved1 := (lit "");
     li_reserved2 := (lit ""); li_reserved3 := (lit ""); li_test_devices := []; li_use_yn := (lit "N") |};
   l_google_map := {| li_ad_units := []; li_data := (lit ""); li_lib_type := 3; li_reserved1 := (lit "");
     li_reserved2 := (lit ""); li_reserved3 := (lit ""); li_test_devices := []; li_use_yn := (lit "N") |} |}.
Proof. vm_compute. reflexivity. Qed.

(** tests/library_parser.rs L70 [reconstruct_library_item] *)
Example t_library_parser_reconstruct_library_item :
  library_item_reconstruct {| li_ad_units := []; li_data := (lit ""); li_lib_type := 0; li_reserved1 := (lit "");
     li_reserved2 := (lit ""); li_reserved3 := (lit ""); li_test_devices := []; li_use_yn := (lit "N") |} =
  (lit "{""adUnits"":[],""data"":"""",""libType"":0,""reserved1"":"""",""reserved2"":"""",""reserved3"":"""",""testDevices"":[],""useYn"":""N""}").
Proof. vm_compute. reflexivity. Qed.

(** tests/library_parser.rs L93 [reconstruct_library] *)
Example t_library_parser_reconstruct_library :
  library_reconstruct {| l_firebase := {| li_ad_units := []; li_data := (lit ""); li_lib_type := 0; li_reserved1 := (lit "");
     li_reserved2 := (lit ""); li_reserved3 := (lit ""); li_test_devices := []; li_use_yn := (lit "N") |};
   l_compat := {| li_ad_units := []; li_data := (lit ""); li_lib_type := 1; li_reserved1 := (lit "");
     li_reserved2 := (lit ""); li_reserved3 := (lit ""); li_test_devices := []; li_use_yn := (lit "Y") |};
   l_admob := {| li_ad_units := []; li_data := (lit ""); li_lib_type := 2; li_reserved1 := (lit "");
     li_reserved2 := (lit ""); li_reserved3 := (lit ""); li_test_devices := []; li_use_yn := (lit "N") |};
   l_google_map := {| li_ad_units := []; li_data := (lit ""); li_lib_type := 3; li_reserved1 := (lit "");
     li_reserved2 := (lit ""); li_reserved3 := (lit ""); li_test_devices := []; li_use_yn := (lit "N") |} |} =
  (text ["@firebaseDB";
    "{""adUnits"":[],""data"":"""",""libType"":0,""reserved1"":"""",""reserved2"":"""",""reserved3"":"""",""testDevices"":[],""useYn"":""N""}";
    "@compat";
    "{""adUnits"":[],""data"":"""",""libType"":1,""reserved1"":"""",""reserved2"":"""",""reserved3"":"""",""testDevices"":[],""useYn"":""Y""}";
    "@admob";
    "{""adUnits"":[],""data"":"""",""libType"":2,""reserved1"":"""",""reserved2"":"""",""reserved3"":"""",""testDevices"":[],""useYn"":""N""}";
    "@googleMap";
    "{""adUnits"":[],""data"":"""",""libType"":3,""reserved1"":"""",""reserved2"":"""",""reserved3"":"""",""testDevices"":[],""useYn"":""N""}"]%string).
Proof. vm_compute. reflexivity. Qed.

(** tests/logic_parser.rs L13 [parse_variable_0] *)
Example t_logic_parser_parse_variable_0 :
  variable_parse (lit "1:my_int") = Ok {| va_name := (lit "my_int"); va_type := VtInteger |}.
Proof. vm_compute. reflexivity. Qed.

(** tests/logic_parser.rs L31 [parse_variable_1] *)
Example t_logic_parser_parse_variable_1 :
  variable_parse (lit "3:variable_with_a_very_long_name") = Ok {| va_name := (lit "variable_with_a_very_long_name"); va_type := VtHashMap |}.
Proof. vm_compute. reflexivity. Qed.

(** tests/logic_parser.rs L49 [parse_variable_pool_0] *)
Example t_logic_parser_parse_variable_pool_0 :
  variable_pool_parse (text ["1:my_int";
    "2:my_str";
    "1:my_2nd_int";
    "0:my_cool_bool";
    "2:my_2nd_str";
    "3:my_hashmap"]%string) =
  Ok [((lit "my_int"), {| va_name := (lit "my_int"); va_type := VtInteger |});
   ((lit "my_str"), {| va_name := (lit "my_str"); va_type := VtString |});
   ((lit "my_2nd_int"), {| va_name := (lit "my_2nd_int"); va_type := VtInteger |});
   ((lit "my_cool_bool"), {| va_name := (lit "my_cool_bool"); va_type := VtBoolean |});
   ((lit "my_2nd_str"), {| va_name := (lit "my_2nd_str"); va_type := VtString |});
   ((lit "my_hashmap"), {| va_name := (lit "my_hashmap"); va_type := VtHashMap |})].
Proof. vm_compute. reflexivity. Qed.

(** tests/logic_parser.rs L82 [parse_variable_pool_1] *)
Example t_logic_parser_parse_variable_pool_1 :
  variable_pool_parse (text ["1:size";
    "1:size2";
    "2:col";
    "2:blacks";
    "2:reds";
    "2:yellows";
    "2:pointer";
    "1:size3";
    "0:v";
    "0:i";
    "2:pinks";
    "2:purple";
    "2:deepPurple";
    "2:Indigo";
    "2:Blue";
    "2:LightBlue";
    "2:cyan";
    "2:teal";
    "2:green";
    "2:lightGreen";
    "2:lime";
    "2:amber";
    "2:Orange";
    "2:deeoOrange";
    "2:brown";
    "2:gray";
    "2:blueGray";
    "2:transparent";
    "2:canvastitle";
    "2:canvasok";
    "2:cwidth";
    "2:cheight";
    "2:canvastoast";
    "1:canvaswidth";
    "1:canvasheight";
    "1:widthpx";
    "1:heightpx";
    "2:canvascancel";
    "1:tv";
    "0:bl_on";
    "0:bl_off";
    "1:h";
    "1:w";
    "1:canvash";
    "1:canvasw";
    "1:hout";
    "1:wout";
    "2:canvas_path";
    "0:lx";
    "0:ly";
    "1:svd";
    "0:vtmundo";
    "2:image_name";
    "2:folder_path";
    "2:output_path"]%string) =
  Ok [((lit "size"), {| va_name := (lit "size"); va_type := VtInteger |});
   ((lit "size2"), {| va_name := (lit "size2"); va_type := VtInteger |});
   ((lit "col"), {| va_name := (lit "col"); va_type := VtString |});
   ((lit "blacks"), {| va_name := (lit "blacks"); va_type := VtString |});
   ((lit "reds"), {| va_name := (lit "reds"); va_type := VtString |});
   ((lit "yellows"), {| va_name := (lit "yellows"); va_type := VtString |});
   ((lit "pointer"), {| va_name := (lit "pointer"); va_type := VtString |});
   ((lit "size3"), {| va_name := (lit "size3"); va_type := VtInteger |});
   ((lit "v"), {| va_name := (lit "v"); va_type := VtBoolean |});
   ((lit "i"), {| va_name := (lit "i"); va_type := VtBoolean |});
   ((lit "pinks"), {| va_name := (lit "pinks"); va_type := VtString |});
   ((lit "purple"), {| va_name := (lit "purple"); va_type := VtString |});
   ((lit "deepPurple"), {| va_name := (lit "deepPurple"); va_type := VtString |});
   ((lit "Indigo"), {| va_name := (lit "Indigo"); va_type := VtString |});
   ((lit "Blue"), {| va_name := (lit "Blue"); va_type := VtString |});
   ((lit "LightBlue"), {| va_name := (lit "LightBlue"); va_type := VtString |});
   ((lit "cyan"), {| va_name := (lit "cyan"); va_type := VtString |});
   ((lit "teal"), {| va_name := (lit "teal"); va_type := VtString |});
   ((lit "green"), {| va_name := (lit "green"); va_type := VtString |});
   ((lit "lightGreen"), {| va_name := (lit "lightGreen"); va_type := VtString |});
   ((lit "lime"), {| va_name := (lit "lime"); va_type := VtString |});
   ((lit "amber"), {| va_name := (lit "amber"); va_type := VtString |});
   ((lit "Orange"), {| va_name := (lit "Orange"); va_type := VtString |});
   ((lit "deeoOrange"), {| va_name := (lit "deeoOrange"); va_type := VtString |});
   ((lit "brown"), {| va_name := (lit "brown"); va_type := VtString |});
   ((lit "gray"), {| va_name := (lit "gray"); va_type := VtString |});
   ((lit "blueGray"), {| va_name := (lit "blueGray"); va_type := VtString |});
   ((lit "transparent"), {| va_name := (lit "transparent"); va_type := VtString |});
   ((lit "canvastitle"), {| va_name := (lit "canvastitle"); va_type := VtString |});
   ((lit "canvasok"), {| va_name := (lit "canvasok"); va_type := VtString |});
   ((lit "cwidth"), {| va_name := (lit "cwidth"); va_type := VtString |});
   ((lit "cheight"), {| va_name := (lit "cheight"); va_type := VtString |});
   ((lit "canvastoast"), {| va_name := (lit "canvastoast"); va_type := VtString |});
   ((lit "canvaswidth"), {| va_name := (lit "canvaswidth"); va_type := VtInteger |});
   ((lit "canvasheight"), {| va_name := (lit "canvasheight"); va_type := VtInteger |});
   ((lit "widthpx"), {| va_name := (lit "widthpx"); va_type := VtInteger |});
   ((lit "heightpx"), {| va_name := (lit "heightpx"); va_type := VtInteger |});
   ((lit "canvascancel"), {| va_name := (lit "canvascancel"); va_type := VtString |});
   ((lit "tv"), {| va_name := (lit "tv"); va_type := VtInteger |});
   ((lit "bl_on"), {| va_name := (lit "bl_on"); va_type := VtBoolean |});
   ((lit "bl_off"), {| va_name := (lit "bl_off"); va_type := VtBoolean |});
   ((lit "h"), {| va_name := (lit "h"); va_type := VtInteger |});
   ((lit "w"), {| va_name := (lit "w"); va_type := VtInteger |});
   ((lit "canvash"), {| va_name := (lit "canvash"); va_type := VtInteger |});
   ((lit "canvasw"), {| va_name := (lit "canvasw"); va_type := VtInteger |});
   ((lit "hout"), {| va_name := (lit "hout"); va_type := VtInteger |});
   ((lit "wout"), {| va_name := (lit "wout"); va_type := VtInteger |});
   ((lit "canvas_path"), {| va_name := (lit "canvas_path"); va_type := VtString |});
   ((lit "lx"), {| va_name := (lit "lx"); va_type := VtBoolean |});
   ((lit "ly"), {| va_name := (lit "ly"); va_type := VtBoolean |});
   ((lit "svd"), {| va_name := (lit "svd"); va_type := VtInteger |});
   ((lit "vtmundo"), {| va_name := (lit "vtmundo"); va_type := VtBoolean |});
   ((lit "image_name"), {| va_name := (lit "image_name"); va_type := VtString |});
   ((lit "folder_path"), {| va_name := (lit "folder_path"); va_type := VtString |});
   ((lit "output_path"), {| va_name := (lit "output_path"); va_type := VtString |})].
Proof. vm_compute. reflexivity. Qed.

(** tests/logic_parser.rs L217 [parse_list_variable] *)
Example t_logic_parser_parse_list_variable :
  list_variable_parse (lit "0:my_booleans") = Ok {| lv_name := (lit "my_booleans"); lv_type := VtBoolean |}.
Proof. vm_compute. reflexivity. Qed.

(** tests/logic_parser.rs L234 [parse_list_variable_pool] *)
Example t_logic_parser_parse_list_variable_pool :
  list_variable_pool_parse (text ["0:booleans";
    "1:integers";
    "2:strings";
    "3:maps"]%string) =
  Ok [((lit "booleans"), {| lv_name := (lit "booleans"); lv_type := VtBoolean |});
   ((lit "integers"), {| lv_name := (lit "integers"); lv_type := VtInteger |});
   ((lit "strings"), {| lv_name := (lit "strings"); lv_type := VtString |});
   ((lit "maps"), {| lv_name := (lit "maps"); lv_type := VtHashMap |})].
Proof. vm_compute. reflexivity. Qed.

(** tests/logic_parser.rs L263 [parse_component] *)
Example t_logic_parser_parse_component :
  component_parse (lit "{""componentId"":""dialog"",""param1"":"""",""param2"":"""",""param3"":"""",""type"":7}") =
  Ok {| co_id := (lit "dialog"); co_param1 := (lit ""); co_param2 := (lit ""); co_param3 := (lit ""); co_type := 7 |}.
Proof. vm_compute. reflexivity. Qed.

(** tests/logic_parser.rs L286 [parse_event] *)
Example t_logic_parser_parse_event :
  event_parse (lit "{""eventName"":""onClick"",""eventType"":1,""targetId"":""linear10"",""targetType"":0}") =
  Ok {| ev_name := (lit "onClick"); ev_type := 1; ev_target_id := (lit "linear10"); ev_target_type := 0 |}.
Proof. vm_compute. reflexivity. Qed.

(** tests/logic_parser.rs L304 [parse_event_pool] *)
Example t_logic_parser_parse_event_pool :
  event_pool_parse (text ["{""eventName"":""onResponse"",""eventType"":2,""targetId"":""ping_test"",""targetType"":17}";
    "{""eventName"":""onErrorResponse"",""eventType"":2,""targetId"":""ping_test"",""targetType"":17}";
    "{""eventName"":""onClick"",""eventType"":1,""targetId"":""item_2"",""targetType"":0}";
    "{""eventName"":""onClick"",""eventType"":1,""targetId"":""item_3"",""targetType"":0}";
    "{""eventName"":""onClick"",""eventType"":1,""targetId"":""item_5"",""targetType"":0}";
    "{""eventName"":""onClick"",""eventType"":1,""targetId"":""item_1"",""targetType"":0}";
    "{""eventName"":""onCheckedChange"",""eventType"":1,""targetId"":""switch_theme"",""targetType"":13}";
    "{""eventName"":""onResponse"",""eventType"":2,""targetId"":""get_ip"",""targetType"":17}";
    "{""eventName"":""onClick"",""eventType"":1,""targetId"":""aver"",""targetType"":0}";
    "{""eventName"":""onClick"",""eventType"":1,""targetId"":""dsdk"",""targetType"":0}"]%string) =
  Ok [{| ev_name := (lit "onResponse"); ev_type := 2; ev_target_id := (lit "ping_test"); ev_target_type := 17 |};
   {| ev_name := (lit "onErrorResponse"); ev_type := 2; ev_target_id := (lit "ping_test"); ev_target_type := 17 |};
   {| ev_name := (lit "onClick"); ev_type := 1; ev_target_id := (lit "item_2"); ev_target_type := 0 |};
   {| ev_name := (lit "onClick"); ev_type := 1; ev_target_id := (lit "item_3"); ev_target_type := 0 |};
   {| ev_name := (lit "onClick"); ev_type := 1; ev_target_id := (lit "item_5"); ev_target_type := 0 |};
   {| ev_name := (lit "onClick"); ev_type := 1; ev_target_id := (lit "item_1"); ev_target_type := 0 |};
   {| ev_name := (lit "onCheckedChange"); ev_type := 1; ev_target_id := (lit "switch_theme"); ev_target_type := 13 |};
   {| ev_name := (lit "onResponse"); ev_type := 2; ev_target_id := (lit "get_ip"); ev_target_type := 17 |};
   {| ev_name := (lit "onClick"); ev_type := 1; ev_target_id := (lit "aver"); ev_target_type := 0 |};
   {| ev_name := (lit "onClick"); ev_type := 1; ev_target_id := (lit "dsdk"); ev_target_type := 0 |}].
Proof. vm_compute. reflexivity. Qed.

(** tests/logic_parser.rs L342 [parse_more_block] *)
Example t_logic_parser_parse_more_block :
  more_block_parse (lit "cool_moreblock:hello world %s") = Ok {| mb_id := (lit "cool_moreblock"); mb_spec := (lit "hello world %s") |}.
Proof. vm_compute. reflexivity. Qed.

(** tests/logic_parser.rs L358 [parse_more_block_pool_0] *)
Example t_logic_parser_parse_more_block_pool_0 :
  more_block_pool_parse (text ["cool_moreblock:hello world %s";
    "hello_world:very poggers %s cool %i"]%string) =
  Ok [((lit "cool_moreblock"), {| mb_id := (lit "cool_moreblock"); mb_spec := (lit "hello world %s") |});
   ((lit "hello_world"), {| mb_id := (lit "hello_world"); mb_spec := (lit "very poggers %s cool %i") |})].
Proof. vm_compute. reflexivity. Qed.

(** tests/logic_parser.rs L373 [parse_more_block_pool_1] *)
Example t_logic_parser_parse_more_block_pool_1 :
  more_block_pool_parse (text ["CardView:CardView %s.color %d.radius %d.shadow %m.view.view";
    "setBackgroundLinear:setBackgroundLinear %m.view.view fromFilePath %s.path";
    "SaveLinear:SaveLinear %m.view.view to path %s.path";
    "edtDial:edtDial Nazv %s.str1 Mess %s.str2 Hint %s.hint Dialog %m.dialog.dia Output %m.textview.getMess";
    "save_and_exit:save_and_exit Nazv %s.str1 Mess %s.str2 Hint %s.hint Dialog %m.dialog.dia Output %m.textview.getMess";
    "canvas:canvas %d.width %d.height";
    "setCornerRadius:setCornerRadius to %m.view.view percentage %d.percent";
    "EditTextLimit:EditTextLimit %m.textview.edittext setLimit %d.limit output %m.textview.output_tv";
    "saveView:saveView %m.view.view folderPath %s.folderPath outputPath %s.outputPath"]%string) =
  Ok [((lit "CardView"), {| mb_id := (lit "CardView"); mb_spec := (lit "CardView %s.color %d.radius %d.shadow %m.view.view") |});
   ((lit "setBackgroundLinear"), {| mb_id := (lit "setBackgroundLinear"); mb_spec := (lit "setBackgroundLinear %m.view.view fromFilePath %s.path") |});
   ((lit "SaveLinear"), {| mb_id := (lit "SaveLinear"); mb_spec := (lit "SaveLinear %m.view.view to path %s.path") |});
   ((lit "edtDial"), {| mb_id := (lit "edtDial"); mb_spec := (lit "edtDial Nazv %s.str1 Mess %s.str2 Hint %s.hint Dialog %m.dialog.dia Output %m.textview.getMess") |});
   ((lit "save_and_exit"), {| mb_id := (lit "save_and_exit"); mb_spec := (lit "save_and_exit Nazv %s.str1 Mess %s.str2 Hint %s.hint Dialog %m.dialog.dia Output %m.textview.getMess") |});
   ((lit "canvas"), {| mb_id := (lit "canvas"); mb_spec := (lit "canvas %d.width %d.height") |});
   ((lit "setCornerRadius"), {| mb_id := (lit "setCornerRadius"); mb_spec := (lit "setCornerRadius to %m.view.view percentage %d.percent") |});
   ((lit "EditTextLimit"), {| mb_id := (lit "EditTextLimit"); mb_spec := (lit "EditTextLimit %m.textview.edittext setLimit %d.limit output %m.textview.output_tv") |});
   ((lit "saveView"), {| mb_id := (lit "saveView"); mb_spec := (lit "saveView %m.view.view folderPath %s.folderPath outputPath %s.outputPath") |})].
Proof. vm_compute. reflexivity. Qed.

(** tests/logic_parser.rs L409 [parse_logic_0] *)
Example t_logic_parser_parse_logic_0 :
  is_ok (logic_parse false (text ["@MainActivity.java_var";
    "2:out";
    "";
    "@MainActivity.java_func";
    "execute_shell:execute_shell %s.command";
    "";
    "@MainActivity.java_onCreate_initializeLogic";
    "{""color"":-10701022,""id"":""12"",""nextBlock"":10,""opCode"":""addSourceDirectly"",""parameters"":[""// For those who are familiar with Linux commands, we\u0027re reading /proc/cpuinfo, and /proc/meminfo""],""spec"":""add source directly %s.inputOnly"",""subStack1"":-1,""subStack2"":-1,""type"":"" "",""typeName"":""""}";
    "{""color"":-7711273,""id"":""10"",""nextBlock"":13,""opCode"":""definedFunc"",""parameters"":[""cat /proc/cpuinfo""],""spec"":""execute_shell %s.command"",""subStack1"":-1,""subStack2"":-1,""type"":"" "",""typeName"":""""}";
    "{""color"":-11899692,""id"":""13"",""nextBlock"":11,""opCode"":""setText"",""parameters"":[""cpuinfo"",""@16""],""spec"":""%m.textview setText %s"",""subStack1"":-1,""subStack2"":-1,""type"":"" "",""typeName"":""""}";
    "{""color"":-1147626,""id"":""16"",""nextBlock"":-1,""opCode"":""getVar"",""parameters"":[],""spec"":""out"",""subStack1"":-1,""subStack2"":-1,""type"":""s"",""typeName"":""""}";
    "{""color"":-7711273,""id"":""11"",""nextBlock"":14,""opCode"":""definedFunc"",""parameters"":[""cat /proc/meminfo""],""spec"":""execute_shell %s.command"",""subStack1"":-1,""subStack2"":-1,""type"":"" "",""typeName"":""""}";
    "{""color"":-11899692,""id"":""14"",""nextBlock"":-1,""opCode"":""setText"",""parameters"":[""raminfo"",""@15""],""spec"":""%m.textview setText %s"",""subStack1"":-1,""subStack2"":-1,""type"":"" "",""typeName"":""""}";
    "{""color"":-1147626,""id"":""15"",""nextBlock"":-1,""opCode"":""getVar"",""parameters"":[],""spec"":""out"",""subStack1"":-1,""subStack2"":-1,""type"":""s"",""typeName"":""""}";
    "";
    "@MainActivity.java_execute_shell_moreBlock";
    "{""color"":-10701022,""id"":""10"",""nextBlock"":-1,""opCode"":""addSourceDirectly"",""parameters"":[""StringBuilder output \u003d new StringBuilder();\ntry {\njava.lang.Process cmdProc \u003d Runtime.getRuntime().exec(_command);\n\n\njava.io.BufferedReader stdoutReader \u003d new java.io.BufferedReader(\n         new java.io.InputStreamReader(cmdProc.getInputStream()));\nString line;\nwhile ((line \u003d stdoutReader.readLine()) !\u003d null) {\n   // process procs standard output here\n  output.append(line + \""\\n\"");\n}\n\nthis.out \u003d output.toString();\n\n} catch (java.io.IOException e) {\nthis.out \u003d \""Error occurred\"";\n}""],""spec"":""add source directly %s.inputOnly"",""subStack1"":-1,""subStack2"":-1,""type"":"" "",""typeName"":""""}"]%string)) = true.
Proof. vm_compute. reflexivity. Qed.

(** tests/logic_parser.rs L438 [reconstruct_logic] *)
Example t_logic_parser_reconstruct_logic :
  let t := (text ["@MainActivity.java_var";
    "2:out";
    "";
    "@MainActivity.java_func";
    "execute_shell:execute_shell %s.command";
    "";
    "@MainActivity.java_onCreate_initializeLogic";
    "{""color"":-10701022,""id"":""12"",""nextBlock"":10,""opCode"":""addSourceDirectly"",""parameters"":[""// For those who are familiar with Linux commands, we're reading /proc/cpuinfo, and /proc/meminfo""],""spec"":""add source directly %s.inputOnly"",""subStack1"":-1,""subStack2"":-1,""type"":"" "",""typeName"":""""}";
    "{""color"":-7711273,""id"":""10"",""nextBlock"":13,""opCode"":""definedFunc"",""parameters"":[""cat /proc/cpuinfo""],""spec"":""execute_shell %s.command"",""subStack1"":-1,""subStack2"":-1,""type"":"" "",""typeName"":""""}";
    "{""color"":-11899692,""id"":""13"",""nextBlock"":11,""opCode"":""setText"",""parameters"":[""cpuinfo"",""@16""],""spec"":""%m.textview setText %s"",""subStack1"":-1,""subStack2"":-1,""type"":"" "",""typeName"":""""}";
    "{""color"":-1147626,""id"":""16"",""nextBlock"":-1,""opCode"":""getVar"",""parameters"":[],""spec"":""out"",""subStack1"":-1,""subStack2"":-1,""type"":""s"",""typeName"":""""}";
    "{""color"":-7711273,""id"":""11"",""nextBlock"":14,""opCode"":""definedFunc"",""parameters"":[""cat /proc/meminfo""],""spec"":""execute_shell %s.command"",""subStack1"":-1,""subStack2"":-1,""type"":"" "",""typeName"":""""}";
    "{""color"":-11899692,""id"":""14"",""nextBlock"":-1,""opCode"":""setText"",""parameters"":[""raminfo"",""@15""],""spec"":""%m.textview setText %s"",""subStack1"":-1,""subStack2"":-1,""type"":"" "",""typeName"":""""}";
    "{""color"":-1147626,""id"":""15"",""nextBlock"":-1,""opCode"":""getVar"",""parameters"":[],""spec"":""out"",""subStack1"":-1,""subStack2"":-1,""type"":""s"",""typeName"":""""}";
    "";
    "@MainActivity.java_execute_shell_moreBlock";
    "{""color"":-10701022,""id"":""10"",""nextBlock"":-1,""opCode"":""addSourceDirectly"",""parameters"":[""StringBuilder output = new StringBuilder();\ntry {\njava.lang.Process cmdProc = Runtime.getRuntime().exec(_command);\n\n\njava.io.BufferedReader stdoutReader = new java.io.BufferedReader(\n         new java.io.InputStreamReader(cmdProc.getInputStream()));\nString line;\nwhile ((line = stdoutReader.readLine()) != null) {\n   // process procs standard output here\n  output.append(line + \""\\n\"");\n}\n\nthis.out = output.toString();\n\n} catch (java.io.IOException e) {\nthis.out = \""Error occurred\"";\n}""],""spec"":""add source directly %s.inputOnly"",""subStack1"":-1,""subStack2"":-1,""type"":"" "",""typeName"":""""}"]%string) in
  rmap logic_reconstruct (logic_parse false t) = Ok t.
Proof. vm_compute. reflexivity. Qed.

(** tests/view_parser.rs L5 [parse_android_view] *)
Example t_view_parser_parse_android_view :
  is_some (view_line_parse (lit "{""adSize"":"""",""adUnitId"":"""",""alpha"":1.0,""checked"":0,""choiceMode"":0,""clickable"":1,""customView"":"""",""dividerHeight"":1,""enabled"":1,""firstDayOfWeek"":1,""id"":""linear_title"",""image"":{""resName"":""default_image"",""rotate"":0,""scaleType"":""CENTER""},""indeterminate"":""false"",""index"":0,""layout"":{""backgroundColor"":-1,""gravity"":0,""height"":-2,""layoutGravity"":0,""marginBottom"":0,""marginLeft"":0,""marginRight"":0,""marginTop"":0,""orientation"":0,""paddingBottom"":0,""paddingLeft"":0,""paddingRight"":0,""paddingTop"":0,""weight"":0,""weightSum"":0,""width"":-1},""max"":100,""parent"":""root"",""parentType"":0,""preId"":""linear_title"",""preIndex"":0,""preParent"":""root"",""preParentType"":0,""progress"":0,""progressStyle"":""?android:progressBarStyle"",""scaleX"":1.0,""scaleY"":1.0,""spinnerMode"":1,""text"":{""hint"":"""",""hintColor"":-10453621,""imeOption"":0,""inputType"":1,""line"":0,""singleLine"":0,""text"":"""",""textColor"":-16777216,""textFont"":""default_font"",""textSize"":12,""textType"":0},""translationX"":0.0,""translationY"":0.0,""type"":0}")) = true.
Proof. vm_compute. reflexivity. Qed.

(** tests/view_parser.rs L17 [parse_view] *)
Example t_view_parser_parse_view :
  is_ok (view_parse (text ["@main.xml";
    "{""adSize"":"""",""adUnitId"":"""",""alpha"":1.0,""checked"":0,""choiceMode"":0,""clickable"":1,""customView"":"""",""dividerHeight"":1,""enabled"":1,""firstDayOfWeek"":1,""id"":""vscroll1"",""image"":{""rotate"":0,""scaleType"":""CENTER""},""indeterminate"":""false"",""index"":0,""layout"":{""backgroundColor"":16777215,""gravity"":0,""height"":-2,""layoutGravity"":0,""marginBottom"":8,""marginLeft"":0,""marginRight"":0,""marginTop"":0,""orientation"":-1,""paddingBottom"":0,""paddingLeft"":0,""paddingRight"":0,""paddingTop"":0,""weight"":1,""weightSum"":0,""width"":-1},""max"":100,""parent"":""root"",""parentType"":0,""preId"":""vscroll1"",""preIndex"":0,""preParentType"":0,""progress"":0,""progressStyle"":""?android:progressBarStyle"",""scaleX"":1.0,""scaleY"":1.0,""spinnerMode"":1,""text"":{""hint"":"""",""hintColor"":-10453621,""imeOption"":0,""inputType"":1,""line"":0,""singleLine"":0,""text"":"""",""textColor"":-16777216,""textFont"":""default_font"",""textSize"":12,""textType"":0},""translationX"":0.0,""translationY"":0.0,""type"":12}";
    "{""adSize"":"""",""adUnitId"":"""",""alpha"":1.0,""checked"":0,""choiceMode"":0,""clickable"":1,""customView"":"""",""dividerHeight"":1,""enabled"":1,""firstDayOfWeek"":1,""id"":""vscroll2"",""image"":{""rotate"":0,""scaleType"":""CENTER""},""indeterminate"":""false"",""index"":1,""layout"":{""backgroundColor"":16777215,""gravity"":0,""height"":-2,""layoutGravity"":0,""marginBottom"":0,""marginLeft"":0,""marginRight"":0,""marginTop"":8,""orientation"":-1,""paddingBottom"":0,""paddingLeft"":0,""paddingRight"":0,""paddingTop"":0,""weight"":1,""weightSum"":0,""width"":-1},""max"":100,""parent"":""root"",""parentType"":0,""preId"":""vscroll2"",""preIndex"":0,""preParentType"":0,""progress"":0,""progressStyle"":""?android:progressBarStyle"",""scaleX"":1.0,""scaleY"":1.0,""spinnerMode"":1,""text"":{""hint"":"""",""hintColor"":-10453621,""imeOption"":0,""inputType"":1,""line"":0,""singleLine"":0,""text"":"""",""textColor"":-16777216,""textFont"":""default_font"",""textSize"":12,""textType"":0},""translationX"":0.0,""translationY"":0.0,""type"":12}";
    "{""adSize"":"""",""adUnitId"":"""",""alpha"":1.0,""checked"":0,""choiceMode"":0,""clickable"":1,""customView"":"""",""dividerHeight"":1,""enabled"":1,""firstDayOfWeek"":1,""id"":""linear1"",""image"":{""rotate"":0,""scaleType"":""CENTER""},""indeterminate"":""false"",""index"":0,""layout"":{""backgroundColor"":16777215,""gravity"":0,""height"":-2,""layoutGravity"":0,""marginBottom"":0,""marginLeft"":0,""marginRight"":0,""marginTop"":0,""orientation"":1,""paddingBottom"":8,""paddingLeft"":8,""paddingRight"":8,""paddingTop"":8,""weight"":0,""weightSum"":0,""width"":-1},""max"":100,""parent"":""vscroll1"",""parentType"":12,""preId"":""linear1"",""preIndex"":0,""preParentType"":0,""progress"":0,""progressStyle"":""?android:progressBarStyle"",""scaleX"":1.0,""scaleY"":1.0,""spinnerMode"":1,""text"":{""hint"":"""",""hintColor"":-10453621,""imeOption"":0,""inputType"":1,""line"":0,""singleLine"":0,""text"":"""",""textColor"":-16777216,""textFont"":""default_font"",""textSize"":12,""textType"":0},""translationX"":0.0,""translationY"":0.0,""type"":0}";
    "{""adSize"":"""",""adUnitId"":"""",""alpha"":1.0,""checked"":0,""choiceMode"":0,""clickable"":1,""customView"":"""",""dividerHeight"":1,""enabled"":1,""firstDayOfWeek"":1,""id"":""textview2"",""image"":{""rotate"":0,""scaleType"":""CENTER""},""indeterminate"":""false"",""index"":0,""layout"":{""backgroundColor"":16777215,""gravity"":0,""height"":-2,""layoutGravity"":0,""marginBottom"":0,""marginLeft"":0,""marginRight"":0,""marginTop"":0,""orientation"":-1,""paddingBottom"":8,""paddingLeft"":8,""paddingRight"":8,""paddingTop"":8,""weight"":0,""weightSum"":0,""width"":-2},""max"":100,""parent"":""linear1"",""parentType"":0,""preId"":""textview2"",""preIndex"":0,""preParentType"":0,""progress"":0,""progressStyle"":""?android:progressBarStyle"",""scaleX"":1.0,""scaleY"":1.0,""spinnerMode"":1,""text"":{""hint"":"""",""hintColor"":-10453621,""imeOption"":0,""inputType"":1,""line"":0,""singleLine"":0,""text"":""CPU Info"",""textColor"":-16777216,""textFont"":""default_font"",""textSize"":12,""textType"":0},""translationX"":0.0,""translationY"":0.0,""type"":4}";
    "{""adSize"":"""",""adUnitId"":"""",""alpha"":1.0,""checked"":0,""choiceMode"":0,""clickable"":1,""customView"":"""",""dividerHeight"":1,""enabled"":1,""firstDayOfWeek"":1,""id"":""cpuinfo"",""image"":{""rotate"":0,""scaleType"":""CENTER""},""indeterminate"":""false"",""index"":1,""layout"":{""backgroundColor"":16777215,""gravity"":0,""height"":-2,""layoutGravity"":0,""marginBottom"":0,""marginLeft"":0,""marginRight"":0,""marginTop"":0,""orientation"":-1,""paddingBottom"":8,""paddingLeft"":8,""paddingRight"":8,""paddingTop"":8,""weight"":0,""weightSum"":0,""width"":-2},""max"":100,""parent"":""linear1"",""parentType"":0,""preId"":"""",""preIndex"":0,""preParentType"":0,""progress"":0,""progressStyle"":""?android:progressBarStyle"",""scaleX"":1.0,""scaleY"":1.0,""spinnerMode"":1,""text"":{""hint"":"""",""hintColor"":-10453621,""imeOption"":0,""inputType"":1,""line"":0,""singleLine"":0,""text"":""TextView"",""textColor"":-16777216,""textFont"":""default_font"",""textSize"":12,""textType"":0},""translationX"":0.0,""translationY"":0.0,""type"":4}";
    "{""adSize"":"""",""adUnitId"":"""",""alpha"":1.0,""checked"":0,""choiceMode"":0,""clickable"":1,""customView"":"""",""dividerHeight"":1,""enabled"":1,""firstDayOfWeek"":1,""id"":""linear2"",""image"":{""rotate"":0,""scaleType"":""CENTER""},""indeterminate"":""false"",""index"":0,""layout"":{""backgroundColor"":16777215,""gravity"":0,""height"":-2,""layoutGravity"":0,""marginBottom"":0,""marginLeft"":0,""marginRight"":0,""marginTop"":0,""orientation"":1,""paddingBottom"":8,""paddingLeft"":8,""paddingRight"":8,""paddingTop"":8,""weight"":0,""weightSum"":0,""width"":-1},""max"":100,""parent"":""vscroll2"",""parentType"":12,""preId"":""linear2"",""preIndex"":0,""preParentType"":0,""progress"":0,""progressStyle"":""?android:progressBarStyle"",""scaleX"":1.0,""scaleY"":1.0,""spinnerMode"":1,""text"":{""hint"":"""",""hintColor"":-10453621,""imeOption"":0,""inputType"":1,""line"":0,""singleLine"":0,""text"":"""",""textColor"":-16777216,""textFont"":""default_font"",""textSize"":12,""textType"":0},""translationX"":0.0,""translationY"":0.0,""type"":0}";
    "{""adSize"":"""",""adUnitId"":"""",""alpha"":1.0,""checked"":0,""choiceMode"":0,""clickable"":1,""customView"":"""",""dividerHeight"":1,""enabled"":1,""firstDayOfWeek"":1,""id"":""textview3"",""image"":{""rotate"":0,""scaleType"":""CENTER""},""indeterminate"":""false"",""index"":0,""layout"":{""backgroundColor"":16777215,""gravity"":0,""height"":-2,""layoutGravity"":0,""marginBottom"":0,""marginLeft"":0,""marginRight"":0,""marginTop"":0,""orientation"":-1,""paddingBottom"":8,""paddingLeft"":8,""paddingRight"":8,""paddingTop"":8,""weight"":0,""weightSum"":0,""width"":-2},""max"":100,""parent"":""linear2"",""parentType"":0,""preId"":""textview3"",""preIndex"":0,""preParentType"":0,""progress"":0,""progressStyle"":""?android:progressBarStyle"",""scaleX"":1.0,""scaleY"":1.0,""spinnerMode"":1,""text"":{""hint"":"""",""hintColor"":-10453621,""imeOption"":0,""inputType"":1,""line"":0,""singleLine"":0,""text"":""RAM Info"",""textColor"":-16777216,""textFont"":""default_font"",""textSize"":12,""textType"":0},""translationX"":0.0,""translationY"":0.0,""type"":4}";
    "{""adSize"":"""",""adUnitId"":"""",""alpha"":1.0,""checked"":0,""choiceMode"":0,""clickable"":1,""customView"":"""",""dividerHeight"":1,""enabled"":1,""firstDayOfWeek"":1,""id"":""raminfo"",""image"":{""rotate"":0,""scaleType"":""CENTER""},""indeterminate"":""false"",""index"":1,""layout"":{""backgroundColor"":16777215,""gravity"":0,""height"":-2,""layoutGravity"":0,""marginBottom"":0,""marginLeft"":0,""marginRight"":0,""marginTop"":0,""orientation"":-1,""paddingBottom"":8,""paddingLeft"":8,""paddingRight"":8,""paddingTop"":8,""weight"":0,""weightSum"":0,""width"":-2},""max"":100,""parent"":""linear2"",""parentType"":0,""preId"":"""",""preIndex"":0,""preParentType"":0,""progress"":0,""progressStyle"":""?android:progressBarStyle"",""scaleX"":1.0,""scaleY"":1.0,""spinnerMode"":1,""text"":{""hint"":"""",""hintColor"":-10453621,""imeOption"":0,""inputType"":1,""line"":0,""singleLine"":0,""text"":""TextView"",""textColor"":-16777216,""textFont"":""default_font"",""textSize"":12,""textType"":0},""translationX"":0.0,""translationY"":0.0,""type"":4}";
    "";
    "@main.xml_fab";
    "{""adSize"":"""",""adUnitId"":"""",""alpha"":1.0,""checked"":0,""choiceMode"":0,""clickable"":1,""customView"":"""",""dividerHeight"":1,""enabled"":1,""firstDayOfWeek"":1,""id"":""_fab"",""image"":{""rotate"":0,""scaleType"":""CENTER""},""indeterminate"":""false"",""index"":0,""layout"":{""backgroundColor"":16777215,""gravity"":0,""height"":-2,""layoutGravity"":85,""marginBottom"":16,""marginLeft"":16,""marginRight"":16,""marginTop"":16,""orientation"":-1,""paddingBottom"":0,""paddingLeft"":0,""paddingRight"":0,""paddingTop"":0,""weight"":0,""weightSum"":0,""width"":-2},""max"":100,""parentType"":-1,""preIndex"":0,""preParentType"":0,""progress"":0,""progressStyle"":""?android:progressBarStyle"",""scaleX"":1.0,""scaleY"":1.0,""spinnerMode"":1,""text"":{""hint"":"""",""hintColor"":-10453621,""imeOption"":0,""inputType"":1,""line"":0,""singleLine"":0,""text"":"""",""textColor"":-16777216,""textFont"":""default_font"",""textSize"":12,""textType"":0},""translationX"":0.0,""translationY"":0.0,""type"":16}"]%string)) = true.
Proof. vm_compute. reflexivity. Qed.

(** tests/view_parser.rs L40 [reconstruct_android_view] *)
Example t_view_parser_reconstruct_android_view :
  let t := (lit "{""adSize"":"""",""adUnitId"":"""",""alpha"":1.0,""checked"":0,""choiceMode"":0,""clickable"":1,""customView"":"""",""dividerHeight"":1,""enabled"":1,""firstDayOfWeek"":1,""id"":""linear_title"",""image"":{""resName"":""default_image"",""rotate"":0,""scaleType"":""CENTER""},""indeterminate"":""false"",""index"":0,""layout"":{""backgroundColor"":-1,""gravity"":0,""height"":-2,""layoutGravity"":0,""marginBottom"":0,""marginLeft"":0,""marginRight"":0,""marginTop"":0,""orientation"":0,""paddingBottom"":0,""paddingLeft"":0,""paddingRight"":0,""paddingTop"":0,""weight"":0,""weightSum"":0,""width"":-1},""max"":100,""parent"":""root"",""parentType"":0,""preId"":""linear_title"",""preIndex"":0,""preParent"":""root"",""preParentType"":0,""progress"":0,""progressStyle"":""?android:progressBarStyle"",""scaleX"":1.0,""scaleY"":1.0,""spinnerMode"":1,""text"":{""hint"":"""",""hintColor"":-10453621,""imeOption"":0,""inputType"":1,""line"":0,""singleLine"":0,""text"":"""",""textColor"":-16777216,""textFont"":""default_font"",""textSize"":12,""textType"":0},""translationX"":0.0,""translationY"":0.0,""type"":0}") in
  option_map view_line_reconstruct (view_line_parse t) = Some t.
Proof. vm_compute. reflexivity. Qed.

(** tests/view_parser.rs L53 [reconstruct_view] *)
Example t_view_parser_reconstruct_view :
  let t := (text ["@main.xml";
    "{""adSize"":"""",""adUnitId"":"""",""alpha"":1.0,""checked"":0,""choiceMode"":0,""clickable"":1,""customView"":"""",""dividerHeight"":1,""enabled"":1,""firstDayOfWeek"":1,""id"":""vscroll1"",""image"":{""rotate"":0,""scaleType"":""CENTER""},""indeterminate"":""false"",""index"":0,""layout"":{""backgroundColor"":16777215,""gravity"":0,""height"":-2,""layoutGravity"":0,""marginBottom"":8,""marginLeft"":0,""marginRight"":0,""marginTop"":0,""orientation"":-1,""paddingBottom"":0,""paddingLeft"":0,""paddingRight"":0,""paddingTop"":0,""weight"":1,""weightSum"":0,""width"":-1},""max"":100,""parent"":""root"",""parentType"":0,""preId"":""vscroll1"",""preIndex"":0,""preParentType"":0,""progress"":0,""progressStyle"":""?android:progressBarStyle"",""scaleX"":1.0,""scaleY"":1.0,""spinnerMode"":1,""text"":{""hint"":"""",""hintColor"":-10453621,""imeOption"":0,""inputType"":1,""line"":0,""singleLine"":0,""text"":"""",""textColor"":-16777216,""textFont"":""default_font"",""textSize"":12,""textType"":0},""translationX"":0.0,""translationY"":0.0,""type"":12}";
    "{""adSize"":"""",""adUnitId"":"""",""alpha"":1.0,""checked"":0,""choiceMode"":0,""clickable"":1,""customView"":"""",""dividerHeight"":1,""enabled"":1,""firstDayOfWeek"":1,""id"":""vscroll2"",""image"":{""rotate"":0,""scaleType"":""CENTER""},""indeterminate"":""false"",""index"":1,""layout"":{""backgroundColor"":16777215,""gravity"":0,""height"":-2,""layoutGravity"":0,""marginBottom"":0,""marginLeft"":0,""marginRight"":0,""marginTop"":8,""orientation"":-1,""paddingBottom"":0,""paddingLeft"":0,""paddingRight"":0,""paddingTop"":0,""weight"":1,""weightSum"":0,""width"":-1},""max"":100,""parent"":""root"",""parentType"":0,""preId"":""vscroll2"",""preIndex"":0,""preParentType"":0,""progress"":0,""progressStyle"":""?android:progressBarStyle"",""scaleX"":1.0,""scaleY"":1.0,""spinnerMode"":1,""text"":{""hint"":"""",""hintColor"":-10453621,""imeOption"":0,""inputType"":1,""line"":0,""singleLine"":0,""text"":"""",""textColor"":-16777216,""textFont"":""default_font"",""textSize"":12,""textType"":0},""translationX"":0.0,""translationY"":0.0,""type"":12}";
    "{""adSize"":"""",""adUnitId"":"""",""alpha"":1.0,""checked"":0,""choiceMode"":0,""clickable"":1,""customView"":"""",""dividerHeight"":1,""enabled"":1,""firstDayOfWeek"":1,""id"":""linear1"",""image"":{""rotate"":0,""scaleType"":""CENTER""},""indeterminate"":""false"",""index"":0,""layout"":{""backgroundColor"":16777215,""gravity"":0,""height"":-2,""layoutGravity"":0,""marginBottom"":0,""marginLeft"":0,""marginRight"":0,""marginTop"":0,""orientation"":1,""paddingBottom"":8,""paddingLeft"":8,""paddingRight"":8,""paddingTop"":8,""weight"":0,""weightSum"":0,""width"":-1},""max"":100,""parent"":""vscroll1"",""parentType"":12,""preId"":""linear1"",""preIndex"":0,""preParentType"":0,""progress"":0,""progressStyle"":""?android:progressBarStyle"",""scaleX"":1.0,""scaleY"":1.0,""spinnerMode"":1,""text"":{""hint"":"""",""hintColor"":-10453621,""imeOption"":0,""inputType"":1,""line"":0,""singleLine"":0,""text"":"""",""textColor"":-16777216,""textFont"":""default_font"",""textSize"":12,""textType"":0},""translationX"":0.0,""translationY"":0.0,""type"":0}";
    "{""adSize"":"""",""adUnitId"":"""",""alpha"":1.0,""checked"":0,""choiceMode"":0,""clickable"":1,""customView"":"""",""dividerHeight"":1,""enabled"":1,""firstDayOfWeek"":1,""id"":""textview2"",""image"":{""rotate"":0,""scaleType"":""CENTER""},""indeterminate"":""false"",""index"":0,""layout"":{""backgroundColor"":16777215,""gravity"":0,""height"":-2,""layoutGravity"":0,""marginBottom"":0,""marginLeft"":0,""marginRight"":0,""marginTop"":0,""orientation"":-1,""paddingBottom"":8,""paddingLeft"":8,""paddingRight"":8,""paddingTop"":8,""weight"":0,""weightSum"":0,""width"":-2},""max"":100,""parent"":""linear1"",""parentType"":0,""preId"":""textview2"",""preIndex"":0,""preParentType"":0,""progress"":0,""progressStyle"":""?android:progressBarStyle"",""scaleX"":1.0,""scaleY"":1.0,""spinnerMode"":1,""text"":{""hint"":"""",""hintColor"":-10453621,""imeOption"":0,""inputType"":1,""line"":0,""singleLine"":0,""text"":""CPU Info"",""textColor"":-16777216,""textFont"":""default_font"",""textSize"":12,""textType"":0},""translationX"":0.0,""translationY"":0.0,""type"":4}";
    "{""adSize"":"""",""adUnitId"":"""",""alpha"":1.0,""checked"":0,""choiceMode"":0,""clickable"":1,""customView"":"""",""dividerHeight"":1,""enabled"":1,""firstDayOfWeek"":1,""id"":""cpuinfo"",""image"":{""rotate"":0,""scaleType"":""CENTER""},""indeterminate"":""false"",""index"":1,""layout"":{""backgroundColor"":16777215,""gravity"":0,""height"":-2,""layoutGravity"":0,""marginBottom"":0,""marginLeft"":0,""marginRight"":0,""marginTop"":0,""orientation"":-1,""paddingBottom"":8,""paddingLeft"":8,""paddingRight"":8,""paddingTop"":8,""weight"":0,""weightSum"":0,""width"":-2},""max"":100,""parent"":""linear1"",""parentType"":0,""preId"":"""",""preIndex"":0,""preParentType"":0,""progress"":0,""progressStyle"":""?android:progressBarStyle"",""scaleX"":1.0,""scaleY"":1.0,""spinnerMode"":1,""text"":{""hint"":"""",""hintColor"":-10453621,""imeOption"":0,""inputType"":1,""line"":0,""singleLine"":0,""text"":""TextView"",""textColor"":-16777216,""textFont"":""default_font"",""textSize"":12,""textType"":0},""translationX"":0.0,""translationY"":0.0,""type"":4}";
    "{""adSize"":"""",""adUnitId"":"""",""alpha"":1.0,""checked"":0,""choiceMode"":0,""clickable"":1,""customView"":"""",""dividerHeight"":1,""enabled"":1,""firstDayOfWeek"":1,""id"":""linear2"",""image"":{""rotate"":0,""scaleType"":""CENTER""},""indeterminate"":""false"",""index"":0,""layout"":{""backgroundColor"":16777215,""gravity"":0,""height"":-2,""layoutGravity"":0,""marginBottom"":0,""marginLeft"":0,""marginRight"":0,""marginTop"":0,""orientation"":1,""paddingBottom"":8,""paddingLeft"":8,""paddingRight"":8,""paddingTop"":8,""weight"":0,""weightSum"":0,""width"":-1},""max"":100,""parent"":""vscroll2"",""parentType"":12,""preId"":""linear2"",""preIndex"":0,""preParentType"":0,""progress"":0,""progressStyle"":""?android:progressBarStyle"",""scaleX"":1.0,""scaleY"":1.0,""spinnerMode"":1,""text"":{""hint"":"""",""hintColor"":-10453621,""imeOption"":0,""inputType"":1,""line"":0,""singleLine"":0,""text"":"""",""textColor"":-16777216,""textFont"":""default_font"",""textSize"":12,""textType"":0},""translationX"":0.0,""translationY"":0.0,""type"":0}";
    "{""adSize"":"""",""adUnitId"":"""",""alpha"":1.0,""checked"":0,""choiceMode"":0,""clickable"":1,""customView"":"""",""dividerHeight"":1,""enabled"":1,""firstDayOfWeek"":1,""id"":""textview3"",""image"":{""rotate"":0,""scaleType"":""CENTER""},""indeterminate"":""false"",""index"":0,""layout"":{""backgroundColor"":16777215,""gravity"":0,""height"":-2,""layoutGravity"":0,""marginBottom"":0,""marginLeft"":0,""marginRight"":0,""marginTop"":0,""orientation"":-1,""paddingBottom"":8,""paddingLeft"":8,""paddingRight"":8,""paddingTop"":8,""weight"":0,""weightSum"":0,""width"":-2},""max"":100,""parent"":""linear2"",""parentType"":0,""preId"":""textview3"",""preIndex"":0,""preParentType"":0,""progress"":0,""progressStyle"":""?android:progressBarStyle"",""scaleX"":1.0,""scaleY"":1.0,""spinnerMode"":1,""text"":{""hint"":"""",""hintColor"":-10453621,""imeOption"":0,""inputType"":1,""line"":0,""singleLine"":0,""text"":""RAM Info"",""textColor"":-16777216,""textFont"":""default_font"",""textSize"":12,""textType"":0},""translationX"":0.0,""translationY"":0.0,""type"":4}";
    "{""adSize"":"""",""adUnitId"":"""",""alpha"":1.0,""checked"":0,""choiceMode"":0,""clickable"":1,""customView"":"""",""dividerHeight"":1,""enabled"":1,""firstDayOfWeek"":1,""id"":""raminfo"",""image"":{""rotate"":0,""scaleType"":""CENTER""},""indeterminate"":""false"",""index"":1,""layout"":{""backgroundColor"":16777215,""gravity"":0,""height"":-2,""layoutGravity"":0,""marginBottom"":0,""marginLeft"":0,""marginRight"":0,""marginTop"":0,""orientation"":-1,""paddingBottom"":8,""paddingLeft"":8,""paddingRight"":8,""paddingTop"":8,""weight"":0,""weightSum"":0,""width"":-2},""max"":100,""parent"":""linear2"",""parentType"":0,""preId"":"""",""preIndex"":0,""preParentType"":0,""progress"":0,""progressStyle"":""?android:progressBarStyle"",""scaleX"":1.0,""scaleY"":1.0,""spinnerMode"":1,""text"":{""hint"":"""",""hintColor"":-10453621,""imeOption"":0,""inputType"":1,""line"":0,""singleLine"":0,""text"":""TextView"",""textColor"":-16777216,""textFont"":""default_font"",""textSize"":12,""textType"":0},""translationX"":0.0,""translationY"":0.0,""type"":4}";
    "";
    "@main.xml_fab";
    "{""adSize"":"""",""adUnitId"":"""",""alpha"":1.0,""checked"":0,""choiceMode"":0,""clickable"":1,""customView"":"""",""dividerHeight"":1,""enabled"":1,""firstDayOfWeek"":1,""id"":""_fab"",""image"":{""rotate"":0,""scaleType"":""CENTER""},""indeterminate"":""false"",""index"":0,""layout"":{""backgroundColor"":16777215,""gravity"":0,""height"":-2,""layoutGravity"":85,""marginBottom"":16,""marginLeft"":16,""marginRight"":16,""marginTop"":16,""orientation"":-1,""paddingBottom"":0,""paddingLeft"":0,""paddingRight"":0,""paddingTop"":0,""weight"":0,""weightSum"":0,""width"":-2},""max"":100,""parentType"":-1,""preIndex"":0,""preParentType"":0,""progress"":0,""progressStyle"":""?android:progressBarStyle"",""scaleX"":1.0,""scaleY"":1.0,""spinnerMode"":1,""text"":{""hint"":"""",""hintColor"":-10453621,""imeOption"":0,""inputType"":1,""line"":0,""singleLine"":0,""text"":"""",""textColor"":-16777216,""textFont"":""default_font"",""textSize"":12,""textType"":0},""translationX"":0.0,""translationY"":0.0,""type"":16}"]%string) in
  rmap view_reconstruct (view_parse t) = Ok t.
Proof. apply view_test. vm_compute. reflexivity. Qed.

(** the indented outline printed by [print_blocks] of tests/api_block.rs L61-77: depth, text, category *)
Fixpoint outline (depth : nat) (b : ablock) : list (nat * str * res color block_category) :=
  match b with
  | MkBlock s1 s2 _ _ items _ =>
    (depth, content_to_string items, block_category_of b) ::
    match s1 with Some l => flat_map (outline (S depth)) l | None => [] end ++
    match s2 with Some l => flat_map (outline (S depth)) l | None => [] end
  end.

(** tests/api_block.rs L5 [test1]: none of the [unwrap]s panics; the outline is computed, the test only prints it *)
Definition t_api_block_text : str :=
  (text ["{""color"":-1988310,""id"":""14"",""nextBlock"":25,""opCode"":""ifElse"",""parameters"":[""@19""],""spec"":""if %b then"",""subStack1"":40,""subStack2"":43,""type"":""e"",""typeName"":""""}";
    "{""color"":-10701022,""id"":""19"",""nextBlock"":-1,""opCode"":""\u003e"",""parameters"":[""@20"",""0""],""spec"":""%d \u003e %d"",""subStack1"":-1,""subStack2"":-1,""type"":""b"",""typeName"":""""}";
    "{""color"":-3384542,""id"":""20"",""nextBlock"":-1,""opCode"":""lengthList"",""parameters"":[""webviews""],""spec"":""length of %m.list"",""subStack1"":-1,""subStack2"":-1,""type"":""d"",""typeName"":""""}";
    "{""color"":-11899692,""id"":""40"",""nextBlock"":41,""opCode"":""setVisible"",""parameters"":[""linear_notab"",""GONE""],""spec"":""%m.view setVisible %m.visible"",""subStack1"":-1,""subStack2"":-1,""type"":"" "",""typeName"":""""}";
    "{""color"":-11899692,""id"":""41"",""nextBlock"":-1,""opCode"":""setVisible"",""parameters"":[""listview1"",""VISIBLE""],""spec"":""%m.view setVisible %m.visible"",""subStack1"":-1,""subStack2"":-1,""type"":"" "",""typeName"":""""}";
    "{""color"":-11899692,""id"":""43"",""nextBlock"":42,""opCode"":""setVisible"",""parameters"":[""listview1"",""GONE""],""spec"":""%m.view setVisible %m.visible"",""subStack1"":-1,""subStack2"":-1,""type"":"" "",""typeName"":""""}";
    "{""color"":-11899692,""id"":""42"",""nextBlock"":-1,""opCode"":""setVisible"",""parameters"":[""linear_notab"",""VISIBLE""],""spec"":""%m.view setVisible %m.visible"",""subStack1"":-1,""subStack2"":-1,""type"":"" "",""typeName"":""""}";
    "{""color"":-1988310,""id"":""25"",""nextBlock"":-1,""opCode"":""ifElse"",""parameters"":[""@26""],""spec"":""if %b then"",""subStack1"":21,""subStack2"":36,""type"":""e"",""typeName"":""""}";
    "{""color"":-10701022,""id"":""26"",""nextBlock"":-1,""opCode"":""\u003e"",""parameters"":[""@27"",""99""],""spec"":""%d \u003e %d"",""subStack1"":-1,""subStack2"":-1,""type"":""b"",""typeName"":""""}";
    "{""color"":-3384542,""id"":""27"",""nextBlock"":-1,""opCode"":""lengthList"",""parameters"":[""webviews""],""spec"":""length of %m.list"",""subStack1"":-1,""subStack2"":-1,""type"":""d"",""typeName"":""""}";
    "{""color"":-11899692,""id"":""21"",""nextBlock"":39,""opCode"":""setText"",""parameters"":[""textview_tabs"","":D""],""spec"":""%m.textview setText %s"",""subStack1"":-1,""subStack2"":-1,""type"":"" "",""typeName"":""""}";
    "{""color"":-11899692,""id"":""39"",""nextBlock"":-1,""opCode"":""setText"",""parameters"":[""textview1"","":D""],""spec"":""%m.textview setText %s"",""subStack1"":-1,""subStack2"":-1,""type"":"" "",""typeName"":""""}";
    "{""color"":-11899692,""id"":""36"",""nextBlock"":15,""opCode"":""setText"",""parameters"":[""textview_tabs"",""@37""],""spec"":""%m.textview setText %s"",""subStack1"":-1,""subStack2"":-1,""type"":"" "",""typeName"":""""}";
    "{""color"":-10701022,""id"":""37"",""nextBlock"":-1,""opCode"":""toString"",""parameters"":[""@38""],""spec"":""toString %d without decimal"",""subStack1"":-1,""subStack2"":-1,""type"":""s"",""typeName"":""""}";
    "{""color"":-3384542,""id"":""38"",""nextBlock"":-1,""opCode"":""lengthList"",""parameters"":[""webviews""],""spec"":""length of %m.list"",""subStack1"":-1,""subStack2"":-1,""type"":""d"",""typeName"":""""}";
    "{""color"":-11899692,""id"":""15"",""nextBlock"":-1,""opCode"":""setText"",""parameters"":[""textview1"",""@17""],""spec"":""%m.textview setText %s"",""subStack1"":-1,""subStack2"":-1,""type"":"" "",""typeName"":""""}";
    "{""color"":-10701022,""id"":""17"",""nextBlock"":-1,""opCode"":""toString"",""parameters"":[""@18""],""spec"":""toString %d without decimal"",""subStack1"":-1,""subStack2"":-1,""type"":""s"",""typeName"":""""}";
    "{""color"":-3384542,""id"":""18"",""nextBlock"":-1,""opCode"":""lengthList"",""parameters"":[""webviews""],""spec"":""length of %m.list"",""subStack1"":-1,""subStack2"":-1,""type"":""d"",""typeName"":""""}"]%string).
Example t_api_block_test1 :
  let bs := let* c := map_err (fun _ => tt) (block_container_parse t_api_block_text) in map_err (fun _ => tt) (blocks_try_from c) in
  rmap (flat_map (outline 0)) bs =
  Ok [(0%nat, lit "if %b then", Ok CatControl);
   (1%nat, lit "%m.view setVisible %m.visible", Ok CatViewFunc); (1%nat, lit "%m.view setVisible %m.visible", Ok CatViewFunc);
   (1%nat, lit "%m.view setVisible %m.visible", Ok CatViewFunc); (1%nat, lit "%m.view setVisible %m.visible", Ok CatViewFunc);
   (0%nat, lit "if %b then", Ok CatControl);
   (1%nat, lit "%m.textview setText %s", Ok CatViewFunc); (1%nat, lit "%m.textview setText %s", Ok CatViewFunc);
   (1%nat, lit "%m.textview setText %s", Ok CatViewFunc); (1%nat, lit "%m.textview setText %s", Ok CatViewFunc)] /\
  is_ok (let* l := bs in blocks_into l) = true.
Proof. vm_compute. auto. Qed.

(** src/api/mod.rs L295-300 [test_view_name_to_logic] *)
Example t_api_mod_test_view_name_to_logic :
  view_name_to_logic (lit "main") = lit "MainActivity" /\
  view_name_to_logic (lit "debug_screen") = lit "DebugScreenActivity" /\
  view_name_to_logic (lit "very_long_string_i_dont_know_why") = lit "VeryLongStringIDontKnowWhyActivity".
Proof. vm_compute. auto. Qed.
