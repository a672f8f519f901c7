(** Proofs that strings stay valid strings: from the API to the records and back (C92). *)
From Verif Require Import Base Spec Str Dec Flt Json Recs M_Color M_Date M_Raw M_Project M_File M_Library M_Resource M_View M_Logic M_Parsed
  A_Block A_View A_Screen A_Project SpecStrings SpecBlock BlockWriteProofs ViewTreeProofs ViewFlatProofs ApiProjectProofs StringsProofs.

(** ** Blocks *)
Lemma ok_display_dec D E : string_ok (display_dec D E).
Proof.
  unfold display_dec. cbv zeta. assert (Z0 : forall n, string_ok (repeat CH_0 n)) by (intros; apply ok_repeat; ascii).
  repeat match goal with |- context [if ?b then _ else _] => destruct b end; ok_pieces; auto.
  - eapply ok_incl; [apply incl_firstn|apply ok_dec].
  - eapply ok_incl; [apply incl_skipn|apply ok_dec].
Qed.
Lemma ok_display x : string_ok (display_f64 x).
Proof.
  unfold display_f64, display_float. assert (S : forall s : bool, string_ok (if s then [CH_MINUS] else [])) by (intros []; ok_pieces).
  destruct x as [| |s|s m e]; ok_pieces; auto. cbv zeta. destruct (shortest _ _ _ _ _) as [D E]. ok_pieces; auto. destruct (D mod 10 =? 0); apply ok_display_dec.
Qed.
Lemma ok_bool b : string_ok (bool_to_string b).
Proof. destruct b; apply ok_lit. Qed.
Lemma ok_item_spec {B} (f : B -> list str) i : oks (item_texts f i) -> string_ok (item_spec i).
Proof.
  destruct i as [s|[n v|n v|n v|n v]]; cbn [item_texts item_spec arg_spec]; oksplit; intros H; ok_pieces; try tauto;
    destruct n; ok_pieces; destruct H as [H _]; apply oks_alone, H; reflexivity.
Qed.
Lemma ok_content {B} (f : B -> list str) items : oks (flat_map (item_texts f) items) -> string_ok (content_to_string items).
Proof.
  rewrite oks_flat. intros H. unfold content_to_string. eapply ok_incl; [apply incl_removelast|]. rewrite flat_map_concat_map. apply ok_concat, oks_map.
  intros i I. ok_pieces. eapply ok_item_spec. apply H. exact I.
Qed.
Lemma ok_taken {B} (f : B -> list str) items : oks (flat_map (item_texts f) items) -> oks (flat_map (item_texts f) (fst (take_args items))).
Proof.
  rewrite !oks_flat. unfold take_args. cbn [fst]. intros H i I. apply in_map_iff in I as (j & <- & I). apply H in I.
  destruct j as [s|[n v|n v|n v|n v]]; cbn [item_texts empty_arg value_texts] in *; oksplit; tauto.
Qed.
Definition conv_texts (b : ablock) : Prop := forall c last bs c', oks (block_texts b) -> convert_block b c last = Ok (bs, c') -> oks (flat_map raw_block_texts bs).
Lemma conv_stack_texts l : stack_all conv_texts l -> forall c bs c', oks (flat_map block_texts l) -> conv_stack convert_block l c = Ok (bs, c') -> oks (flat_map raw_block_texts bs).
Proof.
  induction l as [|b l IH]; cbn [stack_all conv_stack flat_map]; intros Q c bs c' K H; [injection H as <- <-; constructor|].
  destruct Q as [Q1 Q2]. apply oks_app in K as [K1 K2]. apply bind_ok in H as ([x c1] & H1 & H). apply bind_ok in H as ([y c2] & H2 & H). injection H as <- <-.
  rewrite flat_map_app. apply oks_app. split; [eapply Q1; eauto|eapply IH; eauto].
Qed.
Lemma conv_value_texts {T} (f : T -> str) (g : T -> list str) v c p bs c' : (forall t, oks (g t) -> string_ok (f t)) -> value_all conv_texts v -> oks (value_texts block_texts g v) ->
  conv_value convert_block f v c = Ok (p, bs, c') -> string_ok p /\ oks (flat_map raw_block_texts bs).
Proof.
  intros F Q K H. destruct v as [t|b|i|]; cbn [value_all conv_value value_texts] in *; try discriminate.
  - injection H as <- <- <-. split; [auto|constructor].
  - apply bind_ok in H as ([bs0 c0] & H & E). injection E as <- <- <-. split; [ok_pieces|]. eapply Q; eauto.
  - injection H as <- <- <-. split; [ok_pieces|constructor].
Qed.
Lemma literal_texts t id : oks (raw_block_texts (literal_raw t id)).
Proof. unfold raw_block_texts, literal_raw. cbn [bl_id bl_op_code bl_spec bl_type bl_type_name bl_parameters]. oksplit. repeat split; auto using ok_dec, ok_bool, ok_lit, ok_nil. Qed.
Lemma conv_args_texts items : items_all conv_texts items -> forall c ps bs c', oks (flat_map (item_texts block_texts) items) ->
  conv_args convert_block items c = Ok (ps, bs, c') -> oks ps /\ oks (flat_map raw_block_texts bs).
Proof.
  induction items as [|[t|a] items IH]; cbn [items_all conv_args flat_map]; intros Q c ps bs c' K H.
  - injection H as <- <- <-. split; constructor.
  - apply oks_app in K as [_ K]. eapply IH; eauto. apply Q.
  - destruct Q as [Qa Q]. apply oks_app in K as [Ka K]. apply bind_ok in H as ([[p x] c2] & Ha & H). apply bind_ok in H as ([[ps' y] c3] & H & E). injection E as <- <- <-.
    assert (A : string_ok p /\ oks (flat_map raw_block_texts x)).
    { destruct a as [n v|n v|n v|n v]; cbn [item_all item_texts conv_arg] in *.
      - apply oks_app in Ka as [_ Ka]. eapply conv_value_texts; [|exact Qa|exact Ka|exact Ha]. intros t T. now apply oks_alone.
      - apply oks_app in Ka as [_ Ka]. eapply conv_value_texts; [|exact Qa|exact Ka|exact Ha]. intros t _. apply ok_display.
      - apply oks_app in Ka as [_ Ka]. destruct v as [t|b|i|]; try (eapply conv_value_texts; [|exact Qa|exact Ka|exact Ha]; intros; apply ok_bool).
        injection Ha as <- <- <-. split; [ok_pieces|]. cbn [flat_map]. rewrite app_nil_r. apply literal_texts.
      - apply oks_cons in Ka as [_ Ka]. eapply conv_value_texts; [|exact Qa|exact Ka|exact Ha]. intros t T. now apply oks_alone. }
    destruct (IH Q _ _ _ _ K H) as [I1 I2]. split; [apply oks_cons; tauto|]. rewrite flat_map_app. apply oks_app. tauto.
Qed.
Lemma conv_sub_texts s : sub_all conv_texts s -> forall c z bs c', oks (maybe (flat_map block_texts) s) -> conv_sub convert_block s c = Ok (z, bs, c') -> oks (flat_map raw_block_texts bs).
Proof.
  destruct s as [l|]; cbn [sub_all conv_sub maybe]; intros Q c z bs c' K H; [|injection H as <- <- <-; constructor].
  apply bind_ok in H as ([bs0 c0] & H & E). apply bind_ok in E as (z0 & _ & E). injection E as <- <- <-. eapply conv_stack_texts; eauto.
Qed.
Lemma all_conv_texts b : conv_texts b.
Proof.
  induction b as [s1 s2 col op items ty Q1 Q2 Q] using ablock_induct. intros c last bs c' K H. cbn [convert_block block_texts] in *.
  rewrite oks_cons, !oks_app in K. destruct K as (K0 & Kt & Ki & K1 & K2).
  apply bind_ok in H as ([[ps ba] c1] & Ha & H). apply bind_ok in H as ([[z1 b1] c2] & H1 & H). apply bind_ok in H as ([[z2 b2] c3] & H2 & H). injection H as <- <-.
  destruct (conv_args_texts _ Q _ _ _ _ Ki Ha) as [A1 A2]. pose proof (conv_sub_texts _ Q1 _ _ _ _ K1 H1) as A3. pose proof (conv_sub_texts _ Q2 _ _ _ _ K2 H2) as A4.
  cbn [flat_map]. rewrite !flat_map_app, !oks_app. split; [|tauto]. unfold raw_block_texts. cbn [bl_id bl_op_code bl_spec bl_type bl_type_name bl_parameters].
  oksplit. repeat split; auto using ok_dec.
  - eapply ok_content, ok_taken. apply oks_flat. exact Ki.
  - destruct ty as [|[| | | | |]|[]]; apply ok_lit.
  - destruct ty as [|[| | |n|n|]|]; cbn [get_typename block_type_texts] in *; oksplit; auto using ok_nil; tauto.
Qed.
Lemma stack_all_texts l : stack_all conv_texts l.
Proof. induction l; cbn; auto using all_conv_texts. Qed.
Lemma ok_blocks_into l c : oks (flat_map block_texts l) -> blocks_into l = Ok c -> oks (flat_map raw_block_texts c).
Proof.
  unfold blocks_into, to_block_container. intros K H. destruct (conv_stack convert_block l (10 - 1)) as [[bs c']| |] eqn:E; cbn [rmap fst] in H; try discriminate.
  injection H as <-. eapply conv_stack_texts; eauto using stack_all_texts.
Qed.

(** ** Views *)
Lemma in_layout_texts f x : raw_view_texts (in_layout f x) = raw_view_texts x.
Proof. reflexivity. Qed.
Lemma ok_apply_values t x : oks (view_type_texts t) -> oks (raw_view_texts x) -> oks (raw_view_texts (apply_values t x)).
Proof.
  unfold raw_view_texts. rewrite !oks_app, !oks_cons, !oks_maybe. intros T H.
  destruct t; cbn [view_type_texts] in T; rewrite ?oks_cons in T;
    cbv beta iota delta [apply_values in_layout in_text in_image set_av_layout set_av_text set_av_image set_tc_text_type set_tc_text_size set_tc_text_color set_tc_text set_tc_line set_tc_text_font
      set_tc_single_line set_tc_input_type set_tc_ime_option set_tc_hint_color set_tc_hint set_ic_scale_type set_ic_res_name set_av_progress_style set_av_indeterminate set_av_progress set_av_max
      set_av_custom_view set_av_divider_height set_av_spinner_mode set_av_checked set_av_first_day_of_week set_av_ad_size
      av_ad_size av_ad_unit_id av_custom_view av_id av_progress_style av_text av_image av_parent av_pre_id av_pre_parent tc_hint tc_text tc_text_font ic_res_name];
    try tauto; repeat split; try tauto; intros s [= <-]; apply oks_alone; tauto.
Qed.
Lemma ok_flatten_node n p t : string_ok p -> oks (node_texts n) -> oks (raw_view_texts (snd (flatten_node n p t))).
Proof.
  intros P. unfold node_texts. rewrite oks_cons, oks_app. intros (I & T & R). unfold flatten_node. cbv zeta.
  set (x := set_av_parent_type _ _). assert (X : oks (raw_view_texts x)).
  { unfold x, raw_view_texts in *. rewrite !oks_app, !oks_cons in *. cbn. repeat split; try tauto. now apply oks_alone. }
  unfold type_of_view. destruct (vn_view n) as [ty|e]; cbn [snd].
  - exact (ok_apply_values _ _ T X).
  - exact X.
Qed.
Lemma ok_flatten_view v : forall p t, string_ok p -> oks (aview_texts v) ->
  oks (raw_view_texts (fst (flatten_view v p t))) /\ oks (flat_map raw_view_texts (snd (flatten_view v p t))).
Proof.
  induction v as [n ch IH] using aview_induct. intros p t P H. cbn [aview_texts] in H. apply oks_app in H as [Hn H]. cbn [flatten_view].
  pose proof (ok_flatten_node n p t P Hn) as F. destruct (flatten_node n p t) as [ty x]. cbn [fst snd] in *. split; auto.
  assert (I : string_ok (vn_id n)) by (unfold node_texts in Hn; apply oks_cons in Hn; tauto).
  rewrite flat_map_app, oks_app, !oks_flat. rewrite Forall_forall in IH. rewrite oks_flat in H. split.
  - intros y Y. apply in_map_iff in Y as (q & <- & Y). apply in_map_iff in Y as (c & <- & Y). now apply IH; auto.
  - intros y Y. apply in_flat_map in Y as (q & Y & Z). apply in_map_iff in Y as (c & <- & Y). destruct (IH c Y (vn_id n) ty I (H c Y)) as [_ K]. rewrite oks_flat in K. auto.
Qed.
Lemma ok_flatten l : oks (flat_map aview_texts l) -> oks (flat_map raw_view_texts (flatten_views l None None)).
Proof.
  rewrite oks_flat. intros H. unfold flatten_views. cbv zeta. assert (R : string_ok ROOT) by apply ok_lit. rewrite flat_map_app, oks_app, !oks_flat. split.
  - intros y Y. apply in_map_iff in Y as (q & <- & Y). apply in_map_iff in Y as (c & <- & Y). now apply ok_flatten_view; auto.
  - intros y Y. apply in_flat_map in Y as (q & Y & Z). apply in_map_iff in Y as (c & <- & Y). destruct (ok_flatten_view c ROOT 0 R (H c Y)) as [_ K]. rewrite oks_flat in K. auto.
Qed.
Lemma ok_fab v x : oks (aview_texts v) -> fab_of v = Ok x -> oks (raw_view_texts x).
Proof.
  intros H F. assert (K : oks (flat_map raw_view_texts (flatten_views [v] None None))) by (apply ok_flatten; cbn [flat_map]; rewrite app_nil_r; auto).
  unfold fab_of in F. destruct (flatten_views [v] None None) as [|y r]; cbn [hd_error unwrap bind] in F; [discriminate|]. injection F as <-.
  cbn [flat_map] in K. apply oks_app in K as [K _]. unfold raw_view_texts in *. rewrite !oks_app, !oks_cons in *. cbn. repeat split; try tauto.
Qed.

(** ** Screens and projects *)
Lemma ok_put_events l : forall bc es bc', oks (flat_map aevent_texts l) -> oks (named (flat_map raw_block_texts) bc) -> put_events l bc = Ok (es, bc') ->
  oks (flat_map event_texts es) /\ oks (named (flat_map raw_block_texts) bc').
Proof.
  induction l as [|e r IH]; cbn [put_events flat_map]; intros bc es bc' H B P; [injection P as <- <-; split; [constructor|auto]|].
  apply oks_app in H as [He H]. unfold aevent_texts in He. rewrite oks_cons, oks_app in He. destruct He as (N0 & T & C).
  unfold into_parser_event in P. apply bind_ok in P as (c & Pc & P). apply bind_ok in P as ([es0 bc0] & P & E). injection E as <- <-.
  apply IH in P as [P1 P2]; auto.
  2:{ apply oks_insert; auto; [|eapply ok_blocks_into; eauto]. unfold get_block_container_id, container_id.
      destruct (ae_type e); cbn [event_type_texts] in T; rewrite ?oks_cons in T; [ok_pieces; tauto..|]. destruct (str_eqb _ _); ok_pieces; auto. }
  split; auto. destruct (str_eqb _ _); auto. cbn [flat_map]. apply oks_app. split; auto. unfold event_texts.
  destruct (ae_type e); cbn [event_type_texts apply_event_type ev_name ev_target_id] in *; oksplit; repeat split; auto using ok_nil; tauto.
Qed.
Lemma ok_put_more_blocks l : forall bc ms bc', oks (named amore_block_texts l) -> oks (named (flat_map raw_block_texts) bc) -> put_more_blocks l bc = Ok (ms, bc') ->
  oks (named more_block_texts ms) /\ oks (named (flat_map raw_block_texts) bc').
Proof.
  induction l as [|[k m] r IH]; cbn [put_more_blocks]; intros bc ms bc' H B P; [injection P as <- <-; split; [constructor|auto]|].
  unfold named in H. cbn [flat_map fst snd] in H. rewrite oks_app, oks_cons in H. destruct H as ((Hk & Hm) & H). unfold amore_block_texts in Hm.
  rewrite oks_cons, oks_app in Hm. destruct Hm as (N0 & S & C). unfold into_parser_more_block in P. apply bind_ok in P as (c & Pc & P).
  apply bind_ok in P as ([ms0 bc0] & P & E). injection E as <- <-. apply IH in P as [P1 P2]; auto.
  2:{ apply oks_insert; auto; [|eapply ok_blocks_into; eauto]. unfold more_block_container. ok_pieces; auto. }
  split; auto. unfold named. cbn [flat_map fst snd]. rewrite oks_app, oks_cons. repeat split; auto. unfold more_block_texts. cbn [mb_id mb_spec]. oksplit. repeat split; auto.
  eapply ok_content. apply oks_flat. exact S.
Qed.
Lemma ok_component k id : string_ok id -> oks (component_kind_texts k) -> oks (component_texts (into_parser_component k id)).
Proof.
  intros H K. unfold component_texts. destruct k; cbn [into_parser_component component_new_empty component_new_1param component_new co_id co_param1 co_param2 co_param3 component_kind_texts] in *;
    oksplit; repeat split; auto using ok_nil; tauto.
Qed.
Lemma ok_screen_logic s g : oks (screen_texts s) -> screen_logic_of s = Ok g -> oks (screen_logic_texts g).
Proof.
  unfold screen_texts, screen_logic_of, to_screen_logic. rewrite !oks_app, !oks_cons. intros ((_ & J & _) & _ & V & L & M & C & E & _) P.
  apply bind_ok in P as ([es bc] & P1 & P). apply bind_ok in P as ([ms bc'] & P2 & P). injection P as <-.
  apply ok_put_events in P1 as [E1 B1]; auto; [|constructor]. apply ok_put_more_blocks in P2 as [E2 B2]; auto.
  unfold screen_logic_texts. cbn [sl_name sl_block_containers sl_variables sl_list_variables sl_components sl_events sl_more_blocks maybe].
  rewrite oks_cons, !oks_app. repeat split; auto using oks_collect. rewrite oks_flat. intros c I. apply in_map_iff in I as ((k, v) & <- & I). rewrite oks_named in C.
  apply C in I as [I1 I2]. now apply ok_component.
Qed.
Lemma ok_put_screens l : forall lgs lays fabs lgs' lays' fabs', oks (flat_map screen_texts l) ->
  oks (logic_texts lgs) -> oks (named (flat_map raw_view_texts) lays) -> oks (named raw_view_texts fabs) ->
  put_screens l lgs lays fabs = Ok (lgs', lays', fabs') ->
  oks (logic_texts lgs') /\ oks (named (flat_map raw_view_texts) lays') /\ oks (named raw_view_texts fabs').
Proof.
  induction l as [|s r IH]; cbn [put_screens flat_map]; intros lgs lays fabs lgs' lays' fabs' H G Y F P; [injection P as <- <- <-; auto|].
  apply oks_app in H as [Hs H]. apply bind_ok in P as (fabs0 & Pf & P). apply bind_ok in P as (g & Pg & P).
  pose proof (ok_screen_logic _ _ Hs Pg) as K. unfold screen_texts in Hs. rewrite !oks_app, !oks_cons in Hs. destruct Hs as ((N0 & J & _) & L & _ & _ & _ & _ & _ & B).
  eapply IH; [exact H| | | |exact P].
  - unfold logic_texts. now apply oks_insert.
  - apply oks_insert; auto. now apply ok_flatten.
  - destruct (sc_fab s) as [v|]; [|injection Pf as <-; auto]. apply bind_ok in Pf as (x & Px & E). injection E as <-. cbn [maybe] in B. apply oks_insert; auto. eapply ok_fab; eauto.
Qed.
Lemma ok_components_name p n : string_ok p -> file_name_of (components p) = Some n -> string_ok n.
Proof.
  intros H K. assert (S : oks (split_on SLASH p)).
  { clear K. induction p as [|x r IH]; cbn [split_on]; [repeat constructor|]. apply ok_cons in H as [H1 H2]. apply IH in H2.
    destruct (x =? SLASH); [apply oks_cons; split; [apply ok_nil|auto]|]. destruct (split_on SLASH r) as [|h t]; rewrite ?oks_cons in *; [split; [apply ok_cons; split; auto using ok_nil|constructor]|].
    split; [apply ok_cons; tauto|tauto]. }
  assert (C : forall s m, string_ok s -> In (Normal m) (comp_of s) -> string_ok m).
  { intros s m Hs. unfold comp_of. repeat (match goal with |- context [if ?b then _ else _] => destruct b end); cbn; intros [[=]|[]] || intros []; congruence. }
  unfold file_name_of in K. destruct (rev (components p)) as [|[| | |m] r] eqn:E; try discriminate. injection K as ->.
  assert (I : In (Normal n) (components p)) by (apply in_rev; rewrite E; now left). clear E. unfold components in I. destruct (split_on SLASH p) as [|h t]; [easy|].
  apply oks_cons in S as [S1 S2]. apply in_app_iff in I as [I|I].
  - destruct p; [easy|]. destruct (str_eqb h []); [destruct I as [[=]|[]]|]. destruct (str_eqb h (lit ".")); [destruct I as [[=]|[]]|]. eauto.
  - apply in_flat_map in I as (s & I & J). unfold oks in S2. rewrite Forall_forall in S2. eauto.
Qed.
Lemma ok_full_name {E} w n : oks (wrapper_texts w) -> @get_full_name E w = Ok n -> string_ok n.
Proof.
  destruct w as [p|i m t|i m t]; cbn [wrapper_texts get_full_name]; rewrite ?oks_cons; intros H K.
  - destruct (file_name_of (components p)) eqn:E2; cbn [unwrap] in K; [|discriminate]. injection K as <-. eapply ok_components_name; [|exact E2]. tauto.
  - injection K as <-. tauto.
  - injection K as <-. tauto.
Qed.
Lemma ok_put_resources a l : forall files is files', oks (named wrapper_texts l) -> oks (named wrapper_texts files) -> put_resources a l files = Ok (is, files') ->
  oks (flat_map resource_item_texts is) /\ oks (named wrapper_texts files').
Proof.
  induction l as [|[k w] r IH]; cbn [put_resources]; intros files is files' H F P; [injection P as <- <-; split; [constructor|auto]|].
  unfold named in H. cbn [flat_map fst snd] in H. rewrite oks_app, oks_cons in H. destruct H as ((Hk & Hw) & H).
  apply bind_ok in P as (n & Pn & P). apply bind_ok in P as ([is0 f0] & P & E). injection E as <- <-. apply ok_full_name in Pn; auto.
  apply IH in P as [P1 P2]; auto. 2:{ destruct a; auto. now apply oks_insert. }
  split; auto. cbn [flat_map]. apply oks_app. split; auto. unfold resource_item_texts. cbn [ri_full_name ri_name]. oksplit. auto.
Qed.
Lemma ok_library_of l : oks (libraries_texts l) -> oks (library_texts (library_of l)).
Proof.
  unfold libraries_texts, library_texts. rewrite !oks_app. intros (F & A & G). cbn [flat_map]. rewrite !oks_app. unfold library_of. cbn [l_firebase l_compat l_admob l_google_map].
  assert (E : forall t, oks (library_item_texts (no_library t))).
  { intros t. unfold library_item_texts, no_library. cbn. repeat constructor; first [ascii|apply ok_nil]. }
  repeat split.
  - destruct (lb_firebase l); auto. cbn [maybe] in F. unfold firebase_texts, library_item_texts in *. cbn [li_ad_units li_data li_reserved1 li_reserved2 li_reserved3 li_test_devices li_use_yn flat_map app] in *.
    rewrite !oks_cons in *. repeat split; try tauto; auto using ok_lit; try constructor.
  - unfold library_item_texts. destruct (lb_app_compat l); cbn; repeat constructor; first [ascii|apply ok_nil].
  - destruct (lb_ad_mob l); auto. cbn [maybe] in A. unfold ad_mob_texts, library_item_texts in *. cbn [li_ad_units li_data li_reserved1 li_reserved2 li_reserved3 li_test_devices li_use_yn] in *.
    rewrite !oks_app, !oks_cons in *. repeat split; try tauto; auto using ok_lit, ok_nil; try constructor.
  - destruct (lb_google_map l); auto. cbn [maybe] in G. unfold google_map_texts, library_item_texts in *. cbn [li_ad_units li_data li_reserved1 li_reserved2 li_reserved3 li_test_devices li_use_yn flat_map app] in *.
    rewrite !oks_cons in *. repeat split; try tauto; auto using ok_lit, ok_nil; try constructor.
  - constructor.
Qed.
Lemma ok_custom_views l : forall m, oks (flat_map custom_view_texts l) -> oks (named (flat_map raw_view_texts) m) -> oks (named (flat_map raw_view_texts) (put_custom_views l m)).
Proof.
  unfold put_custom_views. induction l as [|c r IH]; cbn [fold_left flat_map]; intros m H K; auto. apply oks_app in H as [Hc H]. unfold custom_view_texts in Hc.
  apply oks_cons in Hc as [Hn Hc]. apply IH; auto. apply oks_insert; auto. now apply ok_flatten.
Qed.
Lemma ok_into p q : oks (sw_texts p) -> project_into p = Ok q -> oks (parsed_texts q).
Proof.
  unfold sw_texts. rewrite !oks_app. intros (I & M & S & C & L & R) H. apply into_inv in H as (lays & imf & sof & fof & S' & R1 & R2 & R3 & EL & EP & EB & EA & EV & EF).
  unfold resources_texts in R. rewrite !oks_app in R. destruct R as (Ri & Rs & Rf).
  apply ok_put_screens in S' as (G & Y & F); auto; [|constructor..].
  apply ok_put_resources in R1 as [R1 F1]; auto; [|constructor]. apply ok_put_resources in R2 as [R2 F2]; auto; [|constructor]. apply ok_put_resources in R3 as [R3 F3]; auto; [|constructor].
  unfold parsed_texts. rewrite !oks_app. repeat split; auto.
  - rewrite EP. unfold metadata_texts, project_texts, project_of in *. cbn. exact M.
  - unfold file_texts. rewrite EA, EV, map_app, oks_app, !map_map, !oks_map. split; intros x X.
    + rewrite oks_flat in S. apply S in X. unfold screen_texts in X. rewrite oks_app, oks_cons in X. cbn. tauto.
    + rewrite oks_flat in C. apply C in X. unfold custom_view_texts in X. rewrite oks_cons in X. cbn. tauto.
  - rewrite EB. now apply ok_library_of.
  - unfold resource_texts. rewrite !flat_map_app, !oks_app. auto.
  - unfold view_texts. rewrite oks_app. split; auto. rewrite EL. now apply ok_custom_views.
  - rewrite EF. destruct (sp_automatic p); cbn [maybe]; [|constructor]. unfold res_files_texts. cbn [rf_custom_icon rf_images rf_sounds rf_fonts]. rewrite !oks_app. auto.
Qed.
