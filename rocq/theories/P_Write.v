(** Properties C87, C88 and C89: how records and data files are written, and what is new. The specifications are in SpecWrite.v. *)
From Verif Require Import Base Spec Flt Json M_Color ColorProofs M_File M_Library M_Resource M_Logic M_View M_Project M_Raw LogicProofs LogicFileProofs SpecWrite WriteProofs
  A_Block A_Project P_Project P_Logic.
Local Open Scope Z_scope.

(** C87: every record has exactly one text *)
Theorem C87_files x t : file_item_writes x t <-> t = file_item_reconstruct x.
Proof. apply file_item_means. Qed.
Print Assumptions C87_files.
Theorem C87_libraries x t : library_item_writes x t <-> t = library_item_reconstruct x.
Proof. apply library_item_means. Qed.
Print Assumptions C87_libraries.
Theorem C87_resources x t : resource_item_writes x t <-> t = resource_item_reconstruct x.
Proof. apply resource_item_means. Qed.
Print Assumptions C87_resources.
Theorem C87_components x t : component_writes x t <-> t = component_reconstruct x.
Proof. apply component_means. Qed.
Print Assumptions C87_components.
Theorem C87_events x t : event_writes x t <-> t = event_reconstruct x.
Proof. apply event_means. Qed.
Print Assumptions C87_events.
Theorem C87_blocks x t : (cval (bl_color x) < 2 ^ 32)%N -> (block_writes x t <-> t = block_reconstruct x).
Proof. intros C. now apply block_means. Qed.
Print Assumptions C87_blocks.
Theorem C87_variables v l m :
  variable_reconstruct v = variable_line (va_type v) (va_name v) /\ list_variable_reconstruct l = variable_line (lv_type l) (lv_name l) /\ more_block_reconstruct m = more_block_line m.
Proof. split; [symmetry; apply variable_says|]. split; [symmetry; apply list_variable_says|reflexivity]. Qed.
Print Assumptions C87_variables.
Theorem C87_views x t : view_bits x -> (view_writes x t <-> t = view_line_reconstruct x).
Proof. intros B. now apply view_means. Qed.
Print Assumptions C87_views.
Theorem C87_project x t : in_range x -> project_reconstruct x = Ok t -> forall u, project_writes x u <-> u = t.
Proof. apply project_means. Qed.
Print Assumptions C87_project.

(** C88 *)
Theorem C88_file f t : file_writes f t <-> t = file_reconstruct f.
Proof. apply file_means. Qed.
Print Assumptions C88_file.
Theorem C88_resource r t : resource_writes r t <-> t = resource_reconstruct r.
Proof. apply resource_means. Qed.
Print Assumptions C88_resource.
Theorem C88_library l t : library_writes l t <-> t = library_reconstruct l.
Proof. apply library_means. Qed.
Print Assumptions C88_library.
Theorem C88_view v t : Forall view_bits (concat (map snd (vw_layouts v)) ++ map snd (vw_fabs v)) -> (view_file_writes v t <-> t = view_reconstruct v).
Proof.
  rewrite Forall_app. intros [L F]. apply view_file_means.
  - apply Forall_forall. intros kv K. apply Forall_forall. intros x X. rewrite Forall_forall in L. apply L. apply in_concat. exists (snd kv). split; [now apply in_map|exact X].
  - now rewrite Forall_map in F.
Qed.
Print Assumptions C88_view.
Theorem C88_logic l t : logic_typed l -> (logic_writes l t <-> t = logic_reconstruct l).
Proof.
  intros T. apply logic_means. apply logic_typed_ok in T as [_ T]. apply Forall_map. eapply Forall_impl; [|exact T]. intros kv (_ & H & _). exact H.
Qed.
Print Assumptions C88_logic.

(** C89 *)
Lemma means_exactly s j : print_json j = lit s -> means (exactly s) j.
Proof. intros E t. unfold exactly. now rewrite E. Qed.
Theorem C89_view id ty parent pt t : new_view_writes id ty parent pt t <-> t = view_line_reconstruct (view_new_empty id ty parent pt).
Proof. apply means_object. mfields ltac:(first [apply means_text|apply means_count|apply means_number|apply means_exactly; vm_compute; reflexivity]). Qed.
Print Assumptions C89_view.
Theorem C89_components id p q r ty t :
  (new_component_writes id [] ty t <-> t = component_reconstruct (component_new_empty id ty)) /\
  (new_component_writes id [p] ty t <-> t = component_reconstruct (component_new_1param id p ty)) /\
  (new_component_writes id [p; q] ty t <-> t = component_reconstruct (component_new_2params id p q ty)) /\
  (new_component_writes id [p; q; r] ty t <-> t = component_reconstruct (component_new id p q r ty)).
Proof. repeat (split; [apply (component_means (component_new _ _ _ _ _))|]). apply (component_means (component_new _ _ _ _ _)). Qed.
Print Assumptions C89_components.
(** block.rs L367-418: a new block has the colour of its category, and the stacks it was given with the type of a control block *)
Theorem C89_blocks c op content ty s1 s2 :
  Forall (fun b => block_category_of b = Ok c /\ ab_op_code b = op /\ ab_content b = content)
    [block_new c op content ty; block_new_1substack c op content s1; block_new_2substack c op content s1 s2] /\
  map (fun b => (ab_sub_stack1 b, ab_sub_stack2 b, ab_type b))
    [block_new c op content ty; block_new_1substack c op content s1; block_new_2substack c op content s1 s2] =
    [(None, None, ty); (Some s1, None, TControl OneNest); (Some s1, Some s2, TControl TwoNest)].
Proof. split; [|reflexivity]. repeat constructor; unfold block_category_of; cbn [ab_color block_new block_new_1substack block_new_2substack]; destruct c; reflexivity. Qed.
Print Assumptions C89_blocks.
(** logic.rs L334-344, block.rs L328-332, api/mod.rs L111-117, parser/mod.rs L458-466: a new screen has no sections; the others are empty *)
Theorem C89_empty name id :
  logic_reconstruct [(name, screen_new_empty name)] = [] /\ blocks_into blocks_default = Ok [] /\ get_resource id resources_empty = None /\
  rf_custom_icon res_files_default = None /\ rf_images res_files_default = [] /\ rf_sounds res_files_default = [] /\ rf_fonts res_files_default = [].
Proof. repeat split. Qed.
Print Assumptions C89_empty.
(** project.rs L49-59, color.rs L57-61 *)
Theorem C89_colours :
  map color_display [pal_primary palette_default; pal_primary_dark palette_default; pal_accent palette_default; pal_control_normal palette_default;
                     pal_control_highlight palette_default; color_default] =
  map lit ["0xff008dcd"; "0xff0084c2"; "0xff008dcd"; "0xff57beee"; "0x20008dcd"; "0xff000000"]%string.
Proof. vm_compute. reflexivity. Qed.
Print Assumptions C89_colours.
(** api/mod.rs L252-264 *)
Theorem C89_project m c ss cvs l r :
  let p := sw_new m c ss cvs l r in
  sp_custom_icon p = None /\ sp_automatic p = false /\ sp_metadata p = m /\ sp_colors p = c /\ sp_screens p = ss /\ sp_custom_views p = cvs /\
  sp_libraries p = l /\ sp_resources p = r.
Proof. repeat split. Qed.
Print Assumptions C89_project.

Example C87_example :
  file_item_writes {| fi_filename := lit "a""b"; fi_type := FtDrawer; fi_keyboard := KbHidden;
      fi_options := {| ao_toolbar := true; ao_fullscreen := false; ao_drawer := false; ao_fab := true |}; fi_orientation := OrBoth; fi_theme := ThNone |}
    (lit "{""fileName"":""a\""b"",""fileType"":2,""keyboardSetting"":2,""options"":9,""orientation"":2,""theme"":-1}") /\
  component_writes (component_new [10%N; 7%N] (lit "p") [] [] 4) (lit "{""componentId"":""\n\u0007"",""param1"":""p"",""param2"":"""",""param3"":"""",""type"":4}") /\
  ~ component_writes (component_new (lit "x") [] [] [] 4) (lit "{""type"":4,""componentId"":""x"",""param1"":"""",""param2"":"""",""param3"":""""}") /\
  variable_line VtHashMap (lit "m") = lit "3:m" /\ view_bits (view_new_empty (lit "b") 3 (lit "root") 0).
Proof.
  split; [apply C87_files; vm_compute; reflexivity|]. split; [apply C87_components; vm_compute; reflexivity|]. split; [|split; [reflexivity|split; repeat constructor]].
  rewrite C87_components. vm_compute. discriminate.
Qed.
Example C88_example :
  file_writes {| f_activities := []; f_custom_views := [] |} (lit "@activity" ++ NEWLINE ++ NEWLINE ++ lit "@customview" ++ NEWLINE) /\
  resource_writes {| rs_images := [{| ri_full_name := lit "i.png"; ri_name := lit "i"; ri_type := 1 |}]; rs_sounds := []; rs_fonts := [] |}
    (separated NEWLINE [lit "@images"; lit "{""resFullName"":""i.png"",""resName"":""i"",""resType"":1}"; lit "@sounds"; lit "@fonts"; []]) /\
  (let s n := {| sl_name := lit n; sl_block_containers := []; sl_variables := Some [(lit "k", {| va_name := lit "k"; va_type := VtInteger |})];
                 sl_list_variables := None; sl_components := Some []; sl_events := None; sl_more_blocks := None |} in
   logic_typed [(lit "A", s "A"%string); (lit "B", s "B"%string)] /\
   logic_writes [(lit "A", s "A"%string); (lit "B", s "B"%string)]
     (separated NEWLINE (map lit ["@A.java_var"; "1:k"; ""; "@B.java_var"; "1:k"; ""; "@A.java_components"; ""; "@B.java_components"]%string))).
Proof.
  split; [apply C88_file; vm_compute; reflexivity|]. split; [apply C88_resource; vm_compute; reflexivity|]. cbv zeta.
  match goal with |- ?P /\ _ => assert (T : P) end; [|split; [exact T|apply C88_logic; [exact T|vm_compute; reflexivity]]].
  assert (O : forall c, c <> 10%N -> one_line_name [c]).
  { intros c H. split; [intros [X|[]]; congruence|]. intros a b X. apply (f_equal (@length N)) in X. rewrite !app_length in X. cbn in X. lia. }
  assert (S : forall n, one_line_name n -> screen_typed {| sl_name := n; sl_block_containers := []; sl_variables := Some [(lit "k", {| va_name := lit "k"; va_type := VtInteger |})];
    sl_list_variables := None; sl_components := Some []; sl_events := None; sl_more_blocks := None |}).
  { intros n H. unfold screen_typed. cbn [sl_name sl_variables sl_list_variables sl_components sl_events sl_more_blocks sl_block_containers].
    split; [exact H|]. split; [|repeat split; try discriminate; try (intros ? [= <-]; constructor); try constructor; intros [|] ? ? ? X; discriminate X].
    intros p [= <-]. split; [repeat constructor; intros []|]. split; [repeat constructor; cbn; intros [X|[]]; discriminate|].
    intros [|? [|]] k x s c X Y; try discriminate X. injection X as <- <-. cbn in Y. destruct s as [|? [|]]; try discriminate. injection Y as <-. reflexivity. }
  split; [repeat constructor; cbn; intuition discriminate|]. repeat apply Forall_cons; [| |constructor]; (split; [reflexivity|apply S, O; discriminate]).
Qed.
Example C89_example :
  view_line_reconstruct (view_new_empty (lit "b""1") 3 (lit "root") (-1)) =
    lit "{""adSize"":"""",""adUnitId"":"""",""alpha"":1.0,""checked"":0,""choiceMode"":0,""clickable"":1,""customView"":"""",""dividerHeight"":0,""enabled"":1,""firstDayOfWeek"":1,""id"":""b\""1"",""image"":{""rotate"":0,""scaleType"":""CENTER""},""indeterminate"":""false"",""index"":0,""layout"":{""backgroundColor"":16777215,""gravity"":0,""height"":-2,""layoutGravity"":0,""marginBottom"":0,""marginLeft"":0,""marginRight"":0,""marginTop"":0,""orientation"":1,""paddingBottom"":8,""paddingLeft"":8,""paddingRight"":8,""paddingTop"":8,""weight"":0,""weightSum"":0,""width"":-1},""max"":100,""parent"":""root"",""parentType"":-1,""preId"":"""",""preIndex"":0,""preParentType"":0,""progress"":0,""progressStyle"":"""",""scaleX"":1.0,""scaleY"":1.0,""spinnerMode"":1,""text"":{""hint"":"""",""hintColor"":-10453621,""imeOption"":0,""inputType"":1,""line"":0,""singleLine"":0,""text"":"""",""textColor"":-16777216,""textFont"":""default_font"",""textSize"":12,""textType"":0},""translationX"":0.0,""translationY"":0.0,""type"":3}" /\
  new_component_writes (lit "t") [lit "p"] 5 (lit "{""componentId"":""t"",""param1"":""p"",""param2"":"""",""param3"":"""",""type"":5}") /\
  block_category_of (block_new_1substack CatControl (lit "if") [] []) = Ok CatControl.
Proof. split; [vm_compute; reflexivity|]. split; [|reflexivity]. apply (C89_components _ _ [] []). vm_compute. reflexivity. Qed.
