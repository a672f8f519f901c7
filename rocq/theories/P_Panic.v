(** Property C24: which readers of untrusted text can panic, and on what. *)
From Verif Require Import Base Str Spec Dec Flt Json Recs M_Date DateProofs M_Project ProjectProofs M_File M_Library LibraryProofs M_Resource
  M_Color M_View ViewFileProofs M_Logic LogicProofs LogicFileProofs LogicMapProofs SpecJson SpecRecord SpecDate DateTextProofs ProjectCrashProofs.

Lemma file_loop_nopanic ls sec acc n : file_loop ls sec acc n <> Panic.
Proof.
  revert sec acc n; induction ls as [|l ls IH]; intros sec acc n; cbn [file_loop]; [discriminate|].
  destruct (str_eqb l (lit "@activity")); [apply IH|]. destruct (str_eqb l (lit "@customview")); [apply IH|].
  destruct sec; try (apply IH); destruct l; try discriminate; destruct (file_item_parse _); try discriminate; apply IH.
Qed.
Lemma resource_loop_nopanic ls sec acc n : resource_loop ls sec acc n <> Panic.
Proof.
  revert sec acc n; induction ls as [|l ls IH]; intros sec acc n; cbn [resource_loop]; [discriminate|].
  destruct (str_eqb l (lit "@images")); [apply IH|]. destruct (str_eqb l (lit "@sounds")); [apply IH|]. destruct (str_eqb l (lit "@fonts")); [apply IH|].
  destruct sec; try (apply IH); destruct l; try discriminate; destruct (resource_item_parse _); try discriminate; apply IH.
Qed.
Theorem C24_data_files s :
  file_parse s <> Panic /\ library_parse s <> Panic /\ resource_parse s <> Panic /\ view_parse s <> Panic.
Proof.
  split; [apply file_loop_nopanic|split; [|split; [apply resource_loop_nopanic|apply view_parse_nopanic]]].
  unfold library_parse. match goal with |- context [lib_loop ?a ?b ?c] => pose proof (lib_loop_nopanic a b c) as H; destruct (lib_loop a b c) as [st| |] end; cbn [bind]; try congruence.
  destruct (ls_firebase st), (ls_compat st), (ls_admob st), (ls_google_map st); discriminate.
Qed.
Print Assumptions C24_data_files.
Theorem C24_pools s :
  variable_pool_parse s <> Panic /\ list_variable_pool_parse s <> Panic /\ more_block_pool_parse s <> Panic /\
  component_pool_parse s <> Panic /\ event_pool_parse s <> Panic /\ block_container_parse s <> Panic /\ layout_parse s <> Panic.
Proof.
  repeat apply conj.
  - apply rmap_nopanic, pool_loop_nopanic, variable_nopanic.
  - apply rmap_nopanic, pool_loop_nopanic, list_variable_nopanic.
  - apply rmap_nopanic, more_block_pool_iter_nopanic.
  - apply rmap_nopanic, pool_loop_nopanic. intros x. apply ok_or_nopanic.
  - apply rmap_nopanic, pool_loop_nopanic. intros x. apply ok_or_nopanic.
  - unfold block_container_parse, block_container_parse_iter. apply rmap_nopanic, map_err_nopanic, pool_loop_nopanic. intros x. apply ok_or_nopanic.
  - unfold layout_parse. pose proof (layout_iter_nopanic (split_on NL s) [] 0). destruct (layout_parse_iter (split_on NL s) [] 0); cbn [bind]; congruence.
Qed.
Print Assumptions C24_pools.
(** [Logic::parse]: no panic as long as, in every line that starts with '@' and ends like a pool header, the suffix is preceded by an
    ASCII character (normally the dot) *)
Definition cuttable (line : str) : Prop :=
  forall mid suf, In suf [lit "java_var"; lit "java_list"; lit "java_components"; lit "java_events"; lit "java_func"] ->
    line = lit "@" ++ mid ++ suf -> exists n c, mid = n ++ [c] /\ c < 128.
Theorem C24_logic_partial mv s : Forall cuttable (split_on 10 s) -> logic_parse mv s <> Panic.
Proof. apply logic_parse_nopanic. Qed.
Print Assumptions C24_logic_partial.
(** and it does panic whenever the first line is not like that *)
Theorem C24_logic_refuted mv line rest : ~ In 10 line -> ~ cuttable line -> logic_parse mv (line ++ 10 :: rest) = Panic.
Proof.
  intros Hl Hc. set (sufs := [lit "java_var"; lit "java_list"; lit "java_components"; lit "java_events"; lit "java_func"]) in *.
  assert (D : (exists mid suf, In suf sufs /\ line = lit "@" ++ mid ++ suf /\ ~ exists n c, mid = n ++ [c] /\ c < 128) \/ forall mid suf, In suf sufs -> line <> lit "@" ++ mid ++ suf).
  { destruct (starts_with (lit "@") line) eqn:ES; [|right; intros mid suf _ ->; rewrite (proj2 (starts_with_spec _ _)) in ES; [discriminate|eauto]].
    apply starts_with_spec in ES as [r Er].
    destruct (existsb (fun suf => ends_with suf r) sufs) eqn:X.
    - apply existsb_exists in X as (suf & Hs & He). apply ends_with_spec in He as [mid ->]. left. exists mid, suf. split; [auto|split; [auto|]].
      intros (n & c & -> & Hcc). apply Hc. intros mid' suf' Hs' E'. rewrite Er in E'. apply app_inv_head in E'.
      assert (suf' = suf).
      { rewrite <- (rev_involutive suf), <- (rev_involutive suf'). f_equal. apply (f_equal (@rev N)) in E'. rewrite !rev_app_distr in E'.
        unfold sufs in Hs, Hs'. cbn [In] in Hs, Hs'. clear - Hs Hs' E'.
        destruct Hs as [<-|[<-|[<-|[<-|[<-|[]]]]]]; destruct Hs' as [<-|[<-|[<-|[<-|[<-|[]]]]]]; cbn in E' |- *; congruence. }
      subst suf'. apply app_inv_tail in E'. subst mid'. eauto.
    - right. intros mid suf Hs E. rewrite Er in E. apply app_inv_head in E. apply not_true_iff_false in X. apply X. apply existsb_exists. exists suf.
      split; [auto|]. apply ends_with_spec. eauto. }
  destruct D as [(mid & suf & Hs & -> & Hn)|D]; [|exfalso; apply Hc; intros mid suf Hs E; destruct (D mid suf Hs E)]. rewrite <- !app_assoc. apply logic_parse_panic; auto.
  - intros Hi. apply Hl. apply in_or_app. right. apply in_or_app. now left.
  - right. now exists rest.
Qed.
Print Assumptions C24_logic_refuted.
Example C24_logic_example :
  logic_parse true (lit "@java_var") = Panic /\ logic_parse true (lit "@" ++ [233] ++ lit "java_var" ++ [10] ++ lit "0:a") = Panic /\
  logic_parse true (lit "@M.java_var" ++ [10] ++ lit "0:a") <> Panic /\ logic_parse true (lit "@M.java_var" ++ [10] ++ lit "0a") <> Panic.
Proof. vm_compute. repeat split; discriminate. Qed.

(** [Project::parse] panics exactly when the object begins with readable members and a date (SpecDate.v) that cannot be cut
    into pieces or is not a second of the calendar; what follows does not matter, not even malformed text *)
Theorem C24_project_partial s : project_parse s = Panic <-> project_crash s.
Proof. apply project_panic_iff. Qed.
Print Assumptions C24_project_partial.
Theorem C24_project_refuted : exists s, project_parse s = Panic.
Proof. exists (lit "{""my_sc_reg_dt"":""2021111511010""}"). vm_compute. reflexivity. Qed.
Print Assumptions C24_project_refuted.
Example C24_project_example :
  date_crash (lit "2021111511010") /\ date_crash (lit "20210230110100") /\ date_wrong (lit "2021xx") /\ date_crash (lit "2021x") /\ ~ date_crash (lit "20211115110100") /\
  project_parse (lit "{""my_sc_reg_dt"":""20210230110100""}") = Panic /\
  project_parse (lit "{""a"":[],""sc_id"":""601"",""my_sc_reg_dt"":""2021"" oops") = Panic /\
  project_parse (lit "{""a"":[1,],""my_sc_reg_dt"":""2021""}") = Err tt /\ project_parse (lit "{""sc_id"":601,""my_sc_reg_dt"":""2021""}") = Err tt /\
  project_parse (lit "{""my_sc_reg_dt"":""20211115110100""}") = Err tt.
Proof.
  split; [apply date_de_panic; vm_compute; reflexivity|]. split; [apply date_de_panic; vm_compute; reflexivity|]. split; [apply date_de_err; vm_compute; reflexivity|]. split; [apply date_de_panic; vm_compute; reflexivity|].
  split; [intros H; apply date_de_panic in H; vm_compute in H; discriminate|]. vm_compute. auto 10.
Qed.
