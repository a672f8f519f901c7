(** Proofs that strings stay valid strings: from the data files to the records (C92). *)
From Coq Require Import Lia.
From Verif Require Import Base Spec Str Dec Flt Json Recs M_Color M_Date M_Raw M_Project M_File M_Library M_Resource M_View M_Logic M_Parsed
  SpecStrings BlockWriteProofs ApiProjectProofs ProjectReadingProofs StringsProofs StringsApiProofs.

(** ** JSON *)
Lemma ok_skip_ws s : string_ok s -> string_ok (skip_ws s).
Proof. induction s as [|c r IH]; intros H; cbn [skip_ws]; auto. destruct (jws c); auto. apply ok_cons in H. tauto. Qed.
Lemma digit16 c v : to_digit 16 c = Some v -> v < 16.
Proof. unfold to_digit. cbv zeta. destruct (if _ && _ then _ else _) as [d|]; [|discriminate]. destruct (N.ltb_spec d 16); [|discriminate]. intros [= <-]. auto. Qed.
Lemma hex4_small a b c d v : hex4 a b c d = Some v -> v < 65536.
Proof.
  unfold hex4. intros H. apply obind_some in H as (x & X & H). apply obind_some in H as (y & Y & H). apply obind_some in H as (z & Z & H). apply obind_some in H as (w & W & H).
  injection H as <-. apply digit16 in X, Y, Z, W. lia.
Qed.
Definition unit_ok (u : sunit) : Prop := match u with UC c => scal c | UE v => v < 65536 end.
Lemma pstr_ok_any n : forall s u q, (length s <= n)%nat -> string_ok s -> pstr s = Some (u, q) -> Forall unit_ok u /\ string_ok q.
Proof.
  induction n as [|n IH]; intros s u q L H P; (destruct s as [|c r]; [discriminate|]); [cbn in L; lia|]. cbn [length] in L. apply ok_cons in H as [Hc H].
  cbn [pstr] in P. destruct (c =? 34); [injection P as <- <-; split; [constructor|auto]|]. destruct (c =? 92).
  - destruct r as [|e r1]; [discriminate|]. apply ok_cons in H as [He H]. cbn [length] in L. destruct (simple_escape e) as [x|] eqn:S.
    + apply obind_some in P as ([u0 q0] & P & E). injection E as <- <-. apply IH in P as [P1 P2]; [|lia|auto]. split; auto. constructor; auto.
      cbn [unit_ok]. unfold simple_escape in S. repeat (match type of S with (if ?b then _ else _) = _ => destruct b end); try discriminate; injection S as <-; auto; ascii.
    + destruct (e =? 117); [|discriminate]. destruct r1 as [|h1 [|h2 [|h3 [|h4 r2]]]]; try discriminate. destruct (hex4 h1 h2 h3 h4) eqn:X; [|discriminate].
      apply obind_some in P as ([u0 q0] & P & E). injection E as <- <-. do 4 (apply ok_cons in H as [_ H]). cbn [length] in L. apply IH in P as [P1 P2]; [|lia|auto].
      split; auto. constructor; auto. cbn. eapply hex4_small; eauto.
  - destruct (c <? 32); [discriminate|]. apply obind_some in P as ([u0 q0] & P & E). injection E as <- <-. apply IH in P as [P1 P2]; [|lia|auto]. split; auto.
Qed.
Lemma pstr_ok s u q : string_ok s -> pstr s = Some (u, q) -> Forall unit_ok u /\ string_ok q.
Proof. exact (pstr_ok_any (length s) s u q (le_n _)). Qed.
Lemma pair_scal v w : 55296 <= v -> v < 56320 -> 56320 <= w -> w < 57344 -> scal (65536 + (v - 55296) * 1024 + (w - 56320)).
Proof.
  intros A B C D. unfold scal. right. assert (exists a, v = 55296 + a) as (a & ->) by (exists (v - 55296); lia). assert (exists b, w = 56320 + b) as (b & ->) by (exists (w - 56320); lia).
  lia.
Qed.
Lemma single_scal v : v < 65536 -> ((55296 <=? v) && (v <? 56320)) = false -> ((56320 <=? v) && (v <? 57344)) = false -> scal v.
Proof.
  intros H A B. unfold scal. destruct (N.lt_ge_cases v 55296) as [L|L]; [now left|]. right. apply N.leb_le in L as L1. rewrite L1 in A. cbn [andb] in A. apply N.ltb_ge in A.
  apply N.leb_le in A as A1. rewrite A1 in B. cbn [andb] in B. apply N.ltb_ge in B. lia.
Qed.
Lemma join_ok_any n : forall u s, (length u <= n)%nat -> Forall unit_ok u -> join_units u = Some s -> string_ok s.
Proof.
  induction n as [|n IH]; intros u s L H J; (destruct u as [|x r]; [injection J as <-; apply ok_nil|]); [cbn in L; lia|]. cbn [length] in L.
  apply Forall_cons_iff in H as [Hx H]. destruct x as [c|v]; cbn [join_units] in J.
  - destruct (join_units r) as [t|] eqn:E; [|discriminate]. injection J as <-. apply ok_cons. split; auto. eapply IH; eauto. lia.
  - destruct ((0xD800 <=? v) && (v <? 0xDC00)) eqn:S1.
    + destruct r as [|[c|w] r]; try discriminate. destruct ((0xDC00 <=? w) && (w <? 0xE000)) eqn:S2; [|discriminate].
      apply andb_prop in S1 as [A B]. apply andb_prop in S2 as [C D]. apply N.leb_le in A, C. apply N.ltb_lt in B, D. pose proof (pair_scal v w A B C D) as K. clear A B C D.
      revert J K. generalize (65536 + (v - 55296) * 1024 + (w - 56320)). intros x J K.
      destruct (join_units r) as [t|] eqn:E; [|discriminate]. injection J as <-. apply Forall_cons_iff in H as [Hw H]. apply ok_cons. cbn [length] in L. split; [exact K|eapply IH; [|exact H|exact E]; lia].
    + destruct ((0xDC00 <=? v) && (v <? 0xE000)) eqn:S2; [discriminate|]. destruct (join_units r) as [t|] eqn:E; [|discriminate]. injection J as <-. apply ok_cons.
      split; [|eapply IH; [|exact H|exact E]; lia]. exact (single_scal v Hx S1 S2).
Qed.
Lemma join_ok u : Forall unit_ok u -> oks (maybe alone (join_units u)).
Proof. intros H. apply oks_maybe. intros s J. apply oks_alone. exact (join_ok_any (length u) u s (le_n _) H J). Qed.
Lemma span_ok s a b : string_ok s -> span_digits s = (a, b) -> string_ok a /\ string_ok b.
Proof.
  revert a b. induction s as [|c r IH]; intros a b H S; cbn [span_digits] in S; [injection S as <- <-; auto|]. destruct (is_digit c).
  - apply ok_cons in H as [Hc H]. destruct (span_digits r) as [a0 b0]. injection S as <- <-. destruct (IH _ _ H eq_refl). split; auto. apply ok_cons. auto.
  - injection S as <- <-. split; auto using ok_nil.
Qed.
Lemma pnum_ok s n q : string_ok s -> pnum s = Some (n, q) -> oks (num_texts n) /\ string_ok q.
Proof.
  intros H P. unfold pnum in P. destruct (match s with [] => _ | _ => _ end) as [neg s1] eqn:E1.
  assert (H1 : string_ok s1). { destruct s as [|c r]; [injection E1 as <- <-; auto|]. destruct (c =? 45); injection E1 as <- <-; auto. apply ok_cons in H. tauto. }
  destruct (span_digits s1) as [ip s2] eqn:E2. apply span_ok in E2 as [Hi H2]; auto. cbv zeta in P. destruct (negb _); [discriminate|].
  apply obind_some in P as ([fp s3] & E3 & P). apply obind_some in P as ([ex s4] & E4 & P). injection P as <- <-.
  assert (H3 : oks (maybe alone fp) /\ string_ok s3).
  { destruct s2 as [|c r]; [injection E3 as <- <-; split; [constructor|auto]|]. destruct (c =? 46); [|injection E3 as <- <-; split; [constructor|auto]].
    apply ok_cons in H2 as [_ H2]. destruct (span_digits r) as [ds q'] eqn:E. apply span_ok in E as [A B]; auto. destruct ds; [discriminate|]. injection E3 as <- <-. split; auto. now apply oks_alone. }
  assert (H4 : oks (maybe (fun e : bool * str => [snd e]) ex) /\ string_ok s4).
  { destruct H3 as [_ H3]. destruct s3 as [|c r]; [injection E4 as <- <-; split; [constructor|auto]|]. destruct ((c =? 101) || (c =? 69)); [|injection E4 as <- <-; split; [constructor|auto]].
    apply ok_cons in H3 as [_ H3]. destruct (match r with [] => _ | _ => _ end) as [eneg r1] eqn:E5.
    assert (H5 : string_ok r1). { destruct r as [|d r']; [injection E5 as <- <-; auto|]. pose proof H3 as K. apply ok_cons in K as [_ K]. destruct (d =? 45); [|destruct (d =? 43)]; injection E5 as <- <-; auto. }
    destruct (span_digits r1) as [ds q'] eqn:E. apply span_ok in E as [A B]; auto. destruct ds; [discriminate|]. injection E4 as <- <-. split; auto. cbn [maybe snd]. apply oks_cons. split; [auto|constructor]. }
  split; [|tauto]. unfold num_texts. cbn [jint jfrac jexp]. rewrite oks_cons, oks_app. tauto.
Qed.
Lemma strip_ok p s q : string_ok s -> strip_prefix p s = Some q -> string_ok q.
Proof. intros H P. apply strip_prefix_spec in P. subst. apply ok_app in H. tauto. Qed.
Lemma parse_ok_all f : forall s, string_ok s ->
  (forall j q, pval f s = Some (j, q) -> jok j /\ string_ok q) /\
  (forall l q, pelems f s = Some (l, q) -> jok (JArr l) /\ string_ok q) /\
  (forall l q, pmems f s = Some (l, q) -> jok (JObj l) /\ string_ok q).
Proof.
  induction f as [|f IH]; intros s H; [split; [|split]; discriminate|].
  assert (IV : forall t j q, string_ok t -> pval f t = Some (j, q) -> jok j /\ string_ok q) by (intros t j q T; apply (IH t T)).
  assert (IE : forall t l q, string_ok t -> pelems f t = Some (l, q) -> jok (JArr l) /\ string_ok q) by (intros t l q T; apply (IH t T)).
  assert (IM : forall t l q, string_ok t -> pmems f t = Some (l, q) -> jok (JObj l) /\ string_ok q) by (intros t l q T; apply (IH t T)).
  clear IH. split; [|split].
  - intros j q P. cbn [pval] in P. apply ok_skip_ws in H. destruct (skip_ws s) as [|c r] eqn:ES; [discriminate|]. pose proof H as H0. apply ok_cons in H as [_ H].
    destruct (c =? 34); [|destruct (c =? 91); [|destruct (c =? 123); [|destruct (c =? 110); [|destruct (c =? 116); [|destruct (c =? 102)]]]]].
    + apply obind_some in P as ([u q0] & P & E). injection E as <- <-. apply pstr_ok in P as [P1 P2]; auto. split; auto. exact (join_ok _ P1).
    + pose proof (ok_skip_ws _ H) as K. destruct (skip_ws r) as [|d q0]; [discriminate|]. destruct (d =? 93).
      * injection P as <- <-. split; [constructor|]. apply ok_cons in K. tauto.
      * apply obind_some in P as ([l q'] & P & E). injection E as <- <-. eauto.
    + pose proof (ok_skip_ws _ H) as K. destruct (skip_ws r) as [|d q0]; [discriminate|]. destruct (d =? 125).
      * injection P as <- <-. split; [constructor|]. apply ok_cons in K. tauto.
      * apply obind_some in P as ([l q'] & P & E). injection E as <- <-. eauto.
    + apply obind_some in P as (q0 & P & E). injection E as <- <-. split; [constructor|eauto using strip_ok].
    + apply obind_some in P as (q0 & P & E). injection E as <- <-. split; [constructor|eauto using strip_ok].
    + apply obind_some in P as (q0 & P & E). injection E as <- <-. split; [constructor|eauto using strip_ok].
    + destruct ((c =? 45) || is_digit c); [|discriminate]. apply obind_some in P as ([n q0] & P & E). injection E as <- <-. exact (pnum_ok _ _ _ H0 P).
  - intros l q P. cbn [pelems] in P. apply obind_some in P as ([v r] & P & K). apply IV in P as [Pv Pr]; auto. apply ok_skip_ws in Pr. destruct (skip_ws r) as [|c q0]; [discriminate|].
    apply ok_cons in Pr as [_ Pr]. destruct (c =? 44).
    + apply obind_some in K as ([l0 q'] & K & E). injection E as <- <-. apply IE in K as [K1 K2]; auto. split; auto. unfold jok in *. cbn [json_texts flat_map] in *. now apply oks_app.
    + destruct (c =? 93); [|discriminate]. injection K as <- <-. split; auto. unfold jok in *. cbn [json_texts flat_map]. now rewrite app_nil_r.
  - intros l q P. cbn [pmems] in P. apply ok_skip_ws in H. destruct (skip_ws s) as [|c r]; [discriminate|]. apply ok_cons in H as [_ H]. destruct (c =? 34); [|discriminate].
    apply obind_some in P as ([u q0] & P & K). apply pstr_ok in P as [Pu Pq]; auto. apply ok_skip_ws in Pq. destruct (skip_ws q0) as [|d q1]; [discriminate|]. apply ok_cons in Pq as [_ Pq].
    destruct (d =? 58); [|discriminate]. apply obind_some in K as ([v q2] & P & K). apply IV in P as [Pv Pr]; auto. apply ok_skip_ws in Pr. destruct (skip_ws q2) as [|e q3]; [discriminate|].
    apply ok_cons in Pr as [_ Pr]. pose proof (join_ok _ Pu) as J. destruct (e =? 44).
    + apply obind_some in K as ([l0 q'] & K & E). injection E as <- <-. apply IM in K as [K1 K2]; auto. split; auto. unfold jok in *. cbn [json_texts flat_map fst snd] in *. rewrite !oks_app. auto.
    + destruct (e =? 125); [|discriminate]. injection K as <- <-. split; auto. unfold jok in *. cbn [json_texts flat_map fst snd]. rewrite app_nil_r, oks_app. auto.
Qed.
Lemma parse_json_ok s j : string_ok s -> parse_json s = Some j -> jok j.
Proof.
  intros H P. unfold parse_json in P. apply obind_some in P as ([v r] & P & K). destruct (skip_ws r); [|discriminate]. injection K as <-. eapply parse_ok_all in P; [|exact H]. tauto.
Qed.
(** the texts of what is read from a text *)
Definition jreads {A} (d : json -> option A) (f : A -> list str) : Prop := forall j a, jok j -> d j = Some a -> oks (f a).
Definition field_ok (o : option json) : Prop := forall j, o = Some j -> jok j.
Lemma jreads_str : jreads d_str alone.
Proof. intros j a H D. destruct j as [| | |[s|]| |]; try discriminate. injection D as <-. exact H. Qed.
Lemma jreads_list {A} (d : json -> option A) f : jreads d f -> jreads (d_list d) (flat_map f).
Proof.
  intros R j a H D. destruct j as [| | | |l|]; try discriminate. cbn [d_list] in D. unfold jok in H. cbn [json_texts] in H. revert a D.
  induction l as [|x r IH]; intros a D; cbn [omapM] in D; [injection D as <-; constructor|]. cbn [flat_map] in H. apply oks_app in H as [H1 H2].
  apply obind_some in D as (b & D1 & D). apply obind_some in D as (bs & D2 & D). injection D as <-. cbn [flat_map]. apply oks_app. split; eauto.
Qed.
Lemma jreads_option {A} (d : json -> option A) f : jreads d f -> jreads (d_option d) (maybe f).
Proof.
  intros R j a H D. unfold d_option in D. destruct j; try (injection D as <-; exact (Forall_nil _)); (match type of D with option_map Some ?x = _ => destruct x as [y|] eqn:E; [|discriminate] end; injection D as <-; cbn [maybe]; eauto).
Qed.
Lemma req_ok {A} (d : json -> option A) f o a : jreads d f -> field_ok o -> req d o = Some a -> oks (f a).
Proof. intros R F D. destruct o as [j|]; [|discriminate]. exact (R j a (F j eq_refl) D). Qed.
Lemma dflt_ok {A} (d : json -> option A) f x o a : jreads d f -> field_ok o -> oks (f x) -> dflt d x o = Some a -> oks (f a).
Proof. intros R F X D. destruct o as [j|]; [exact (R j a (F j eq_refl) D)|injection D as <-; auto]. Qed.
Lemma sf_ok names j fs : jok j -> sf names j = Some fs -> Forall field_ok fs.
Proof.
  intros H S. unfold sf, struct_fields in S. unfold jok in H. destruct j as [| | | |l|l]; try discriminate; cbn [json_texts] in H.
  - destruct (_ <=? _)%nat; [|discriminate]. injection S as <-. apply Forall_app. rewrite oks_flat in H. rewrite !Forall_forall. split.
    + intros x I. apply in_map_iff in I as (y & <- & I). intros k [= <-]. exact (H y I).
    + intros x I. apply repeat_spec in I. subst. discriminate.
  - destruct (forallb _ _); [|discriminate]. revert fs S. induction (map lit names) as [|n ns IH]; intros fs S; cbn [omapM] in S; [injection S as <-; constructor|].
    apply obind_some in S as (b & S1 & S). apply obind_some in S as (bs & S2 & S). injection S as <-. constructor; auto.
    unfold field_of in S1. rewrite oks_flat in H. destruct (filter _ l) as [|kv [|]] eqn:F; [injection S1 as <-; discriminate| |discriminate]. injection S1 as <-. intros k [= <-].
    assert (I : In kv (filter (fun kv => okey_eqb n (fst kv)) l)) by (rewrite F; now left). apply filter_In in I as [I _]. apply H in I. apply oks_app in I. exact (proj2 I).
Qed.
Lemma from_str_ok {A} (d : json -> option A) f s a : jreads d f -> string_ok s -> from_str d s = Some a -> oks (f a).
Proof. intros R H D. unfold from_str in D. apply obind_some in D as (j & P & D). eapply R; [|exact D]. eapply parse_json_ok; eauto. Qed.
(** the fields of a struct, one by one *)
Ltac struct_in S H :=
  apply obind_some in S as (fs & HF & S); apply (sf_ok _ _ _ H) in HF;
  repeat (match type of S with match ?l with _ => _ end = Some _ => is_var l; destruct l as [|? l]; [discriminate S|apply Forall_cons_iff in HF as [? HF]] end);
  try (match type of S with match ?l with _ => _ end = Some _ => destruct l; [|discriminate S] end); clear HF;
  repeat (apply obind_some in S as (? & ? & S)).
Ltac str_field := match goal with H : req d_str ?o = Some ?x |- string_ok ?x => apply oks_alone; eapply req_ok; [apply jreads_str| |exact H]; assumption end.
Lemma jreads_file_item : jreads d_file_item (fun x => [fi_filename x]).
Proof. intros j a H S. unfold d_file_item in S. struct_in S H. injection S as <-. cbn [fi_filename]. rewrite oks_cons. split; [str_field|constructor]. Qed.
Lemma jreads_ad_unit : jreads d_ad_unit ad_unit_texts.
Proof. intros j a H S. unfold d_ad_unit in S. struct_in S H. injection S as <-. unfold ad_unit_texts. cbn [au_id au_name]. rewrite !oks_cons. repeat split; try str_field. constructor. Qed.
Lemma jreads_library_item : jreads d_library_item library_item_texts.
Proof.
  intros j a H S. unfold d_library_item in S. struct_in S H. injection S as <-. unfold library_item_texts.
  cbn [li_ad_units li_data li_reserved1 li_reserved2 li_reserved3 li_test_devices li_use_yn]. rewrite !oks_app, !oks_cons. repeat split; try str_field; try constructor.
  - eapply req_ok; [apply jreads_list, jreads_ad_unit| |eassumption]. assumption.
  - match goal with H : req (d_list d_str) ?o = Some ?x |- _ => assert (K : oks (flat_map alone x)) by (eapply req_ok; [apply jreads_list, jreads_str| |exact H]; assumption) end.
    rewrite oks_flat in K. apply Forall_forall. intros s I. apply oks_alone. auto.
Qed.
Lemma jreads_resource_item : jreads d_resource_item resource_item_texts.
Proof. intros j a H S. unfold d_resource_item in S. struct_in S H. injection S as <-. unfold resource_item_texts. cbn [ri_full_name ri_name]. rewrite !oks_cons. repeat split; try str_field. constructor. Qed.
Lemma jreads_component : jreads d_component component_texts.
Proof. intros j a H S. unfold d_component in S. struct_in S H. injection S as <-. unfold component_texts. cbn [co_id co_param1 co_param2 co_param3]. rewrite !oks_cons. repeat split; try str_field. constructor. Qed.
Lemma jreads_event : jreads d_event event_texts.
Proof. intros j a H S. unfold d_event in S. struct_in S H. injection S as <-. unfold event_texts. cbn [ev_name ev_target_id]. rewrite !oks_cons. repeat split; try str_field. constructor. Qed.

Lemma strings_field o x : field_ok o -> req (d_list d_str) o = Some x -> oks x.
Proof.
  intros F H. assert (K : oks (flat_map alone x)) by (eapply req_ok; [apply jreads_list, jreads_str|exact F|exact H]). rewrite oks_flat in K. apply Forall_forall. intros s I. apply oks_alone. auto.
Qed.
Lemma jreads_block : jreads d_block raw_block_texts.
Proof.
  intros j a H S. unfold d_block in S. struct_in S H. injection S as <-. unfold raw_block_texts. cbn [bl_id bl_op_code bl_spec bl_type bl_type_name bl_parameters].
  rewrite ?oks_app, !oks_cons. repeat split; try str_field; try (eapply strings_field; [|eassumption]; assumption); try constructor.
Qed.
Ltac opt_field := match goal with H : dflt (d_option d_str) None ?o = Some ?x |- oks (maybe alone ?x) =>
  exact (dflt_ok _ (maybe alone) None o x (jreads_option _ _ jreads_str) ltac:(assumption) (Forall_nil _) H) end.
Lemma jreads_image : jreads d_image (fun x => maybe alone (ic_res_name x)).
Proof.
  intros j a H S. unfold d_image in S. struct_in S H. injection S as <-. cbn [ic_res_name]. opt_field.
Qed.
Lemma jreads_text : jreads d_text (fun x => [tc_hint x; tc_text x; tc_text_font x]).
Proof. intros j a H S. unfold d_text in S. struct_in S H. injection S as <-. cbn [tc_hint tc_text tc_text_font]. rewrite !oks_cons. repeat split; try str_field. constructor. Qed.
Lemma jreads_view : jreads d_view raw_view_texts.
Proof.
  intros j a H S. unfold d_view in S. struct_in S H. injection S as <-. unfold raw_view_texts.
  cbn [av_ad_size av_ad_unit_id av_custom_view av_id av_progress_style av_text av_image av_parent av_pre_id av_pre_parent].
  match goal with T : req d_text _ = Some _ |- _ => eapply (req_ok _ _ _ _ jreads_text) in T; [|assumption]; rewrite !oks_cons in T end.
  match goal with T : req d_image _ = Some _ |- _ => eapply (req_ok _ _ _ _ jreads_image) in T; [|assumption] end.
  rewrite ?oks_app, !oks_cons. repeat split; try str_field; try tauto; opt_field.
Qed.

(** ** Lines and sections *)
Lemma ok_split c s : string_ok s -> oks (split_on c s).
Proof.
  intros H. induction s as [|x r IH]; cbn [split_on]; [repeat constructor|]. apply ok_cons in H as [H1 H2]. apply IH in H2.
  destruct (x =? c); [apply oks_cons; split; [apply ok_nil|auto]|]. destruct (split_on c r) as [|h t]; rewrite ?oks_cons in *; [split; [apply ok_cons; split; auto using ok_nil|constructor]|].
  split; [apply ok_cons; tauto|tauto].
Qed.
Lemma ok_split_once p s a b : string_ok s -> split_once p s = Some (a, b) -> string_ok a /\ string_ok b.
Proof. intros H S. apply split_once_spec in S. subst. rewrite !ok_app in H. tauto. Qed.
Lemma ok_split_first p s : string_ok s -> string_ok (split_first p s).
Proof. intros H. unfold split_first. destruct (split_once p s) as [[a b]|] eqn:E; auto. apply ok_split_once in E; tauto. Qed.
Lemma ok_bdrop s : forall n t, string_ok s -> bdrop n s = Some t -> string_ok t.
Proof.
  induction s as [|c r IH]; intros n t H B; destruct n; cbn [bdrop] in B; try discriminate; try (injection B as <-; auto). apply ok_cons in H as [_ H]. destruct (_ <=? _)%nat; [|discriminate]. eauto.
Qed.
Lemma ok_btake s : forall n t, string_ok s -> btake n s = Some t -> string_ok t.
Proof.
  induction s as [|c r IH]; intros n t H B; destruct n; cbn [btake] in B; try discriminate; try (injection B as <-; apply ok_nil). apply ok_cons in H as [Hc H]. destruct (_ <=? _)%nat; [|discriminate].
  destruct (btake _ r) eqn:E; [|discriminate]. injection B as <-. apply ok_cons. eauto.
Qed.
Lemma ok_bslice a b s t : string_ok s -> bslice a b s = Some t -> string_ok t.
Proof. unfold bslice. intros H B. destruct (_ <=? _)%nat; [|discriminate]. apply obind_some in B as (u & D & T). eapply ok_btake; [|exact T]. eapply ok_bdrop; eauto. Qed.
Lemma ok_or_ok {E A} (e : E) (o : option A) a : ok_or e o = Ok a -> o = Some a.
Proof. destruct o; cbn; congruence. Qed.
Lemma unwrap_ok {E A} (o : option A) a : @unwrap E A o = Ok a -> o = Some a.
Proof. destruct o; cbn; congruence. Qed.
Lemma map_err_ok {E F A} (f : E -> F) (r : res E A) a : map_err f r = Ok a -> r = Ok a.
Proof. destruct r; cbn; congruence. Qed.
Lemma ok_pool {E A M} (p : str -> res E A) (ins : A -> M -> M) (f : A -> list str) (g : M -> list str) :
  (forall l a, string_ok l -> p l = Ok a -> oks (f a)) -> (forall a m, oks (f a) -> oks (g m) -> oks (g (ins a m))) ->
  forall lines n acc r, oks lines -> oks (g acc) -> pool_loop p ins lines n acc = Ok r -> oks (g (fst r)) /\ oks (snd r).
Proof.
  intros P I lines. induction lines as [|l rest IH]; intros n acc r L G H; cbn [pool_loop] in H; [injection H as <-; auto|].
  apply oks_cons in L as [Hl L]. destruct l as [|c l]; [injection H as <-; auto|]. apply bind_ok in H as (a & K & H). apply map_err_ok in K. eapply IH; [exact L| |exact H]. apply I; [eapply P; [exact Hl|exact K]|exact G].
Qed.
Lemma ok_vpush {A} (f : A -> list str) a v : oks (f a) -> oks (flat_map f v) -> oks (flat_map f (vpush a v)).
Proof. intros H K. unfold vpush. rewrite flat_map_app. apply oks_app. split; auto. cbn [flat_map]. rewrite app_nil_r. auto. Qed.
Lemma ok_variable l v : string_ok l -> variable_parse l = Ok v -> oks (variable_texts v).
Proof.
  unfold variable_parse. intros H P. apply bind_ok in P as ([t n] & P1 & P). apply ok_or_ok, ok_split_once in P1 as [_ Hn]; auto. apply bind_ok in P as (x & _ & P). apply bind_ok in P as (y & _ & P).
  injection P as <-. now apply oks_alone.
Qed.
Lemma ok_list_variable l v : string_ok l -> list_variable_parse l = Ok v -> oks (list_variable_texts v).
Proof.
  unfold list_variable_parse. intros H P. apply bind_ok in P as ([t n] & P1 & P). apply ok_or_ok, ok_split_once in P1 as [_ Hn]; auto. apply bind_ok in P as (x & _ & P). apply bind_ok in P as (y & _ & P).
  injection P as <-. now apply oks_alone.
Qed.
Lemma ok_more_block l v : string_ok l -> more_block_parse l = Ok v -> oks (more_block_texts v).
Proof.
  unfold more_block_parse. intros H P. apply bind_ok in P as ([i n] & P1 & P). apply ok_or_ok, ok_split_once in P1 as [Hi Hn]; auto.
  injection P as <-. unfold more_block_texts. cbn [mb_id mb_spec]. rewrite !oks_cons. repeat split; auto. constructor.
Qed.

(** ** The data files *)
Lemma ok_file_parse lines : forall sec acc n f, oks lines -> oks (file_texts acc) -> file_loop lines sec acc n = Ok f -> oks (file_texts f).
Proof.
  induction lines as [|l r IH]; intros sec acc n f L A H; cbn [file_loop] in H; [injection H as <-; auto|]. apply oks_cons in L as [Hl L].
  destruct (str_eqb _ _); [eauto|]. destruct (str_eqb _ _); [eauto|].
  assert (K : forall it, file_item_parse l = Some it -> string_ok (fi_filename it)).
  { intros it P. pose proof (from_str_ok _ _ _ _ jreads_file_item Hl P) as K. apply oks_cons in K. tauto. }
  destruct sec; [| |eauto]; (destruct l as [|c l]; [injection H as <-; auto|]); unfold file_texts in A; rewrite map_app, oks_app in A;
    (destruct (file_item_parse (c :: l)) as [it|] eqn:E; [|discriminate]); (eapply IH; [exact L| |exact H]); unfold file_texts; cbn [f_activities f_custom_views];
    rewrite !map_app, !oks_app; cbn [map]; rewrite oks_cons; repeat split; try tauto; try (apply K; exact eq_refl); constructor.
Qed.
Definition lib_texts (st : lib_state) : list str :=
  maybe library_item_texts (ls_firebase st) ++ maybe library_item_texts (ls_compat st) ++ maybe library_item_texts (ls_admob st) ++ maybe library_item_texts (ls_google_map st).
Lemma ok_lib_loop k : forall lines st n st', (length lines <= k)%nat -> oks lines -> oks (lib_texts st) -> lib_loop lines st n = Ok st' -> oks (lib_texts st').
Proof.
  induction k as [|k IH]; intros lines st n st' LE L A H; (destruct lines as [|l r]; cbn [lib_loop] in H; [injection H as <-; auto|]); cbn [length] in LE; [lia|].
  apply oks_cons in L as [Hl L]. destruct (lib_slot_of l) as [s|]; [|eapply IH; [|exact L|exact A|exact H]; lia]. destruct r as [|item r]; [discriminate|]. apply oks_cons in L as [Hi L].
  destruct (library_item_parse item) as [i|] eqn:E; [|discriminate]. pose proof (from_str_ok _ _ _ _ jreads_library_item Hi E) as K. cbn [length] in LE. eapply IH; [|exact L| |exact H]; [lia|].
  unfold lib_texts in *. rewrite !oks_app in *. destruct s; cbn [lib_set ls_firebase ls_compat ls_admob ls_google_map maybe]; tauto.
Qed.
Lemma ok_library_parse s l : string_ok s -> library_parse s = Ok l -> oks (library_texts l).
Proof.
  intros H P. unfold library_parse in P. apply bind_ok in P as (st & P1 & P). apply (ok_lib_loop _ _ _ _ _ (le_n _)) in P1; [|now apply ok_split|exact (Forall_nil _)].
  apply bind_ok in P as (f & F & P). apply bind_ok in P as (c & C & P). apply bind_ok in P as (a & A & P). apply bind_ok in P as (g & G & P). apply ok_or_ok in F, C, A, G. injection P as <-.
  unfold lib_texts in P1. rewrite F, C, A, G in P1. cbn [maybe] in P1. unfold library_texts. cbn [l_firebase l_compat l_admob l_google_map flat_map]. rewrite !oks_app in *. repeat split; try tauto. constructor.
Qed.
Lemma ok_resource_parse lines : forall sec acc n f, oks lines -> oks (resource_texts acc) -> resource_loop lines sec acc n = Ok f -> oks (resource_texts f).
Proof.
  induction lines as [|l r IH]; intros sec acc n f L A H; cbn [resource_loop] in H; [injection H as <-; auto|]. apply oks_cons in L as [Hl L].
  do 3 (destruct (str_eqb _ _); [eauto|]).
  assert (K : forall it, resource_item_parse l = Some it -> oks (resource_item_texts it)) by (intros it P; exact (from_str_ok _ _ _ _ jreads_resource_item Hl P)).
  destruct sec; [| | |eauto]; (destruct l as [|c l]; [injection H as <-; auto|]);
    (destruct (resource_item_parse (c :: l)) as [it|] eqn:E; [|discriminate]); (eapply IH; [exact L| |exact H]); specialize (K it eq_refl); unfold resource_texts in *; cbn [rs_push rs_images rs_sounds rs_fonts];
    rewrite !flat_map_app, !oks_app in *; cbn [flat_map]; rewrite app_nil_r; tauto.
Qed.
Lemma ok_layout_iter lines : forall acc n lay rest c, oks lines -> oks (flat_map raw_view_texts acc) -> layout_parse_iter lines acc n = Ok (lay, rest, c) -> oks (flat_map raw_view_texts lay) /\ oks rest.
Proof.
  induction lines as [|l r IH]; intros acc n lay rest c L A H; cbn [layout_parse_iter] in H; [injection H as <- <- <-; split; [auto|constructor]|]. apply oks_cons in L as [Hl L].
  destruct l as [|x l]; [injection H as <- <- <-; auto|]. destruct (view_line_parse (x :: l)) as [v|] eqn:E; [|discriminate]. pose proof (from_str_ok _ _ _ _ jreads_view Hl E) as K.
  eapply IH; [exact L| |exact H]. now apply (ok_vpush raw_view_texts).
Qed.
Lemma ok_view_loop k : forall lines acc n v, oks lines -> oks (view_texts acc) -> view_loop k lines acc n = Ok v -> oks (view_texts v).
Proof.
  induction k as [|k IH]; intros lines acc n v L A H; [discriminate|]. cbn [view_loop] in H. destruct lines as [|l r]; [injection H as <-; auto|]. cbv zeta in H. apply oks_cons in L as [Hl L].
  destruct (negb _); [injection H as <-; auto|]. apply bind_ok in H as (rest & R & H). apply unwrap_ok in R. eapply ok_bdrop in R; [|exact Hl].
  destruct (split_once (lit ".") rest) as [[name kind]|] eqn:S; [|discriminate]. apply ok_split_once in S as [Hn _]; [|exact R]. unfold view_texts in A. rewrite oks_app in A. destruct A as [A1 A2].
  destruct (str_eqb kind (lit "xml")).
  - destruct (layout_parse_iter r [] 0) as [[[lay r'] c]| |] eqn:E; try discriminate. apply ok_layout_iter in E as [E1 E2]; [|exact L|exact (Forall_nil _)]. eapply IH; [exact E2| |exact H].
    unfold view_texts. cbn [vw_layouts vw_fabs]. apply oks_app. split; auto. now apply oks_insert.
  - destruct (str_eqb kind (lit "xml_fab")).
    + destruct r as [|f r']; [discriminate|]. apply oks_cons in L as [Hf L]. destruct (view_line_parse f) as [x|] eqn:E; [|discriminate]. pose proof (from_str_ok _ _ _ _ jreads_view Hf E) as K.
      eapply IH; [exact L| |exact H]. unfold view_texts. cbn [vw_layouts vw_fabs]. apply oks_app. split; auto. now apply oks_insert.
    + eapply IH; [exact L| |exact H]. unfold view_texts. apply oks_app. auto.
Qed.
Lemma ok_entry mv k f m : string_ok k -> (forall s, oks (screen_logic_texts s) -> oks (screen_logic_texts (f s))) -> oks (logic_texts m) -> oks (logic_texts (entry_update mv k f m)).
Proof.
  intros K F M. unfold logic_texts, entry_update in *. destruct (sget k m) as [v|] eqn:G.
  - pose proof (oks_get _ _ _ _ M G) as V. destruct mv; [apply oks_named_snoc; auto; now apply oks_remove|]. clear G V. induction m as [|[k' v'] r IH]; cbn [supdate]; auto.
    unfold named in M. cbn [flat_map fst snd] in M. rewrite oks_app, oks_cons in M. destruct M as ((M1 & M2) & M3).
    destruct (str_eqb k k'); unfold named; cbn [flat_map fst snd]; rewrite oks_app, oks_cons; auto.
  - apply oks_named_snoc; auto. apply F. unfold screen_logic_texts, screen_new_empty. cbn. apply oks_cons. split; [auto|constructor].
Qed.
Lemma ok_header n l name : string_ok l -> header_name n l = Ok name -> string_ok name.
Proof. unfold header_name. intros H P. destruct (_ <=? _)%nat; [|discriminate]. apply unwrap_ok in P. eapply ok_bslice; eauto. Qed.
Lemma ok_container_header l h : string_ok l -> container_header_parse l = Ok h -> string_ok (ch_screen h) /\ string_ok (ch_container h).
Proof.
  unfold container_header_parse. intros H P. destruct (starts_with _ _); [|discriminate]. destruct (split_once _ l) as [[a b]|] eqn:S.
  - apply ok_split_once in S as [A B]; auto. apply bind_ok in P as (n & N0 & P). apply unwrap_ok in N0. injection P as <-. cbn [ch_screen ch_container]. split; [eapply ok_bdrop; [exact A|exact N0]|now apply ok_split_first].
  - apply bind_ok in P as (n & _ & P). discriminate.
Qed.
Lemma ok_fold_more v : forall m, oks (flat_map more_block_texts v) -> oks (named more_block_texts m) -> oks (named more_block_texts (fold_left (fun m b => sinsert (mb_id b) b m) v m)).
Proof.
  induction v as [|b r IH]; intros m H M; cbn [fold_left]; auto. cbn [flat_map] in H. apply oks_app in H as [Hb H]. apply IH; auto. apply oks_insert; auto. unfold more_block_texts in Hb. apply oks_cons in Hb. tauto.
Qed.
Lemma ok_logic_loop mv k : forall lines n m g, oks lines -> oks (logic_texts m) -> logic_loop mv k lines n m = Ok g -> oks (logic_texts g).
Proof.
  induction k as [|k IH]; intros lines n m g L A H; (destruct lines as [|line rest]; cbn [logic_loop] in H; [injection H as <-; auto|]); [discriminate|]. apply oks_cons in L as [Hl L].
  destruct (negb _); [injection H as <-; auto|].
  assert (SEC : forall (p : variable_pool) s, oks (named variable_texts p) -> oks (screen_logic_texts s) -> oks (screen_logic_texts (set_variables p s))).
  { intros p s P. unfold screen_logic_texts. rewrite !oks_cons, !oks_app. cbn. tauto. }
  assert (SEL : forall (p : list_variable_pool) s, oks (named list_variable_texts p) -> oks (screen_logic_texts s) -> oks (screen_logic_texts (set_list_variables p s))).
  { intros p s P. unfold screen_logic_texts. rewrite !oks_cons, !oks_app. cbn. tauto. }
  assert (SCO : forall p s, oks (flat_map component_texts p) -> oks (screen_logic_texts s) -> oks (screen_logic_texts (set_components p s))).
  { intros p s P. unfold screen_logic_texts. rewrite !oks_cons, !oks_app. cbn. tauto. }
  assert (SEV : forall p s, oks (flat_map event_texts p) -> oks (screen_logic_texts s) -> oks (screen_logic_texts (set_events p s))).
  { intros p s P. unfold screen_logic_texts. rewrite !oks_cons, !oks_app. cbn. tauto. }
  assert (SMB : forall p s, oks (named more_block_texts p) -> oks (screen_logic_texts s) -> oks (screen_logic_texts (set_more_blocks p s))).
  { intros p s P. unfold screen_logic_texts. rewrite !oks_cons, !oks_app. cbn. tauto. }
  assert (SBC : forall c p s, string_ok c -> oks (flat_map raw_block_texts p) -> oks (screen_logic_texts s) -> oks (screen_logic_texts (add_container c p s))).
  { intros c p s C P. unfold screen_logic_texts. rewrite !oks_cons, !oks_app. cbn. intros (S1 & S2 & S3). repeat split; try tauto. now apply oks_insert. }
  destruct (ends_with _ line); [|destruct (ends_with _ line); [|destruct (ends_with _ line); [|destruct (ends_with _ line); [|destruct (ends_with _ line)]]]].
  - apply bind_ok in H as (name & HN & H). apply ok_header in HN; auto. apply bind_ok in H as ([p r'] & P & H). apply map_err_ok in P.
    apply (ok_pool _ _ variable_texts (named variable_texts) ok_variable) in P as [P1 P2]; [|intros a q Q1 Q2; apply oks_insert; auto; now apply oks_alone|exact L|exact (Forall_nil _)].
    eapply IH; [exact P2| |exact H]. apply ok_entry; [assumption|intros s; now apply SEC|assumption].
  - apply bind_ok in H as (name & HN & H). apply ok_header in HN; auto. apply bind_ok in H as ([p r'] & P & H). apply map_err_ok in P.
    apply (ok_pool _ _ list_variable_texts (named list_variable_texts) ok_list_variable) in P as [P1 P2]; [|intros a q Q1 Q2; apply oks_insert; auto; now apply oks_alone|exact L|exact (Forall_nil _)].
    eapply IH; [exact P2| |exact H]. apply ok_entry; [assumption|intros s; now apply SEL|assumption].
  - apply bind_ok in H as (name & HN & H). apply ok_header in HN; auto. apply bind_ok in H as ([p r'] & P & H). apply map_err_ok in P.
    apply (ok_pool _ _ component_texts (flat_map component_texts)) in P as [P1 P2]; [|intros l a Q1 Q2; apply ok_or_ok in Q2; exact (from_str_ok _ _ _ _ jreads_component Q1 Q2)|intros a q; apply ok_vpush|exact L|exact (Forall_nil _)].
    eapply IH; [exact P2| |exact H]. apply ok_entry; [assumption|intros s; now apply SCO|assumption].
  - apply bind_ok in H as (name & HN & H). apply ok_header in HN; auto. apply bind_ok in H as ([p r'] & P & H). apply map_err_ok in P.
    apply (ok_pool _ _ event_texts (flat_map event_texts)) in P as [P1 P2]; [|intros l a Q1 Q2; apply ok_or_ok in Q2; exact (from_str_ok _ _ _ _ jreads_event Q1 Q2)|intros a q; apply ok_vpush|exact L|exact (Forall_nil _)].
    eapply IH; [exact P2| |exact H]. apply ok_entry; [assumption|intros s; now apply SEV|assumption].
  - apply bind_ok in H as (name & HN & H). apply ok_header in HN; auto. apply bind_ok in H as ([p r'] & P & H). apply map_err_ok in P. unfold more_block_pool_parse_iter in P. apply bind_ok in P as ([v r2] & P & E).
    apply (ok_pool _ _ more_block_texts (flat_map more_block_texts) ok_more_block) in P as [P1 P2]; [|intros a q; apply ok_vpush|exact L|exact (Forall_nil _)]. injection E as <- <-.
    eapply IH; [exact P2| |exact H]. apply ok_entry; [assumption|intros s; apply SMB; apply ok_fold_more; [exact P1|exact (Forall_nil _)]|assumption].
  - apply bind_ok in H as (h & HH & H). apply map_err_ok, ok_container_header in HH as [H1 H2]; auto. apply bind_ok in H as ([p r'] & P & H). apply map_err_ok in P. unfold block_container_parse_iter in P. apply map_err_ok in P.
    apply (ok_pool _ _ raw_block_texts (flat_map raw_block_texts)) in P as [P1 P2]; [|intros l a Q1 Q2; apply ok_or_ok in Q2; exact (from_str_ok _ _ _ _ jreads_block Q1 Q2)|intros a q; apply ok_vpush|exact L|exact (Forall_nil _)].
    eapply IH; [exact P2| |exact H]. apply ok_entry; [assumption|intros s; now apply SBC|assumption].
Qed.

Lemma ok_pj_fold kvs : forall st st', jok (JObj kvs) -> oks (maybe alone (ps_app st) ++ maybe alone (ps_ws st) ++ maybe alone (ps_pkg st) ++ maybe alone (ps_vn st)) ->
  pj_fold kvs st = Ok st' -> oks (maybe alone (ps_app st') ++ maybe alone (ps_ws st') ++ maybe alone (ps_pkg st') ++ maybe alone (ps_vn st')).
Proof.
  induction kvs as [|[k v] r IH]; intros st st' J A H; cbn [pj_fold] in H; [injection H as <-; auto|]. unfold jok in J. cbn [json_texts flat_map fst snd] in J. rewrite !oks_app in J.
  destruct J as ((_ & Jv) & J). apply bind_ok in H as (st1 & S & H). eapply IH; [exact J| |exact H]. clear H. unfold pj_step in S. destruct k as [k|]; [|discriminate].
  assert (D : forall x, d_str v = Some x -> oks (alone x)) by (intros x X; exact (jreads_str _ _ Jv X)).
  rewrite !oks_app in *. unfold once in S.
  repeat (match type of S with (if ?b then _ else _) = _ => destruct b end);
    try (apply bind_ok in S as (x & X & S); injection S as <-; cbn [ps_app ps_ws ps_pkg ps_vn maybe];
      try (match type of X with match ?o with _ => _ end = _ => destruct o; [discriminate X|] end; apply ok_or_ok in X); repeat split; try tauto; apply D; exact X).
  - injection S as <-. cbn [ps_app ps_ws ps_pkg ps_vn]. tauto.
  - discriminate.
Qed.
Lemma ok_project_parse s p : string_ok s -> project_parse s = Ok p -> oks (project_texts p).
Proof.
  intros H P. unfold project_parse in P. destruct (parse_json s) as [j|] eqn:E; [|destruct (pj_fold _ _); discriminate]. apply parse_json_ok in E; auto. unfold d_project in P. destruct j; try discriminate.
  apply bind_ok in P as (st & F & P). apply ok_pj_fold in F; [|exact E|exact (Forall_nil _)]. do 9 (apply bind_ok in P as (? & ?K & P)). apply bind_ok in P as (pal & _ & P). injection P as <-.
  apply ok_or_ok in K0, K1, K2, K4. rewrite K0, K1, K2, K4 in F. cbn [maybe] in F. unfold project_texts. cbn [pj_app_name pj_workspace_name pj_package_name pj_version_name].
  rewrite !oks_app, !oks_alone in F. rewrite !oks_cons. repeat split; try tauto. constructor.
Qed.
(** ** Resource files *)
Lemma ok_rf_put t n w r : string_ok n -> oks (wrapper_texts w) -> oks (res_files_texts r) -> oks (res_files_texts (rf_put t n w r)).
Proof.
  intros Hn W. unfold res_files_texts. rewrite !oks_app. intros (R1 & R2 & R3 & R4). destruct t; cbn [rf_put rf_custom_icon rf_images rf_sounds rf_fonts maybe]; repeat split; auto; now apply oks_insert.
Qed.
Lemma ok_rf_collect ex ws : forall r r', oks (flat_map wrapper_texts ws) -> oks (res_files_texts r) -> rf_collect ex ws r = Ok r' -> oks (res_files_texts r').
Proof.
  induction ws as [|w rest IH]; intros r r' W R H; cbn [rf_collect] in H; [injection H as <-; auto|]. cbn [flat_map] in W. apply oks_app in W as [Hw W]. apply bind_ok in H as (r1 & S & H).
  eapply IH; [exact W| |exact H]. destruct w as [p|i n t|i n t]; cbn [rf_step] in S.
  - destruct (negb _); [discriminate|]. apply bind_ok in S as (p1 & _ & S). apply bind_ok in S as (p2 & _ & S). apply bind_ok in S as (fo & _ & S). apply bind_ok in S as (n & N0 & S). apply bind_ok in S as (t & _ & S).
    injection S as <-. apply ok_or_ok, ok_components_name in N0; [|cbn [wrapper_texts] in Hw; apply oks_cons in Hw; tauto]. now apply ok_rf_put.
  - injection S as <-. apply ok_rf_put; auto. cbn [wrapper_texts] in Hw. rewrite !oks_cons in Hw. tauto.
  - injection S as <-. apply ok_rf_put; auto. cbn [wrapper_texts] in Hw. rewrite !oks_cons in Hw. tauto.
Qed.
Lemma ok_parse mv ex r q : oks (raw_texts r) -> parse_from mv ex r = Ok q -> oks (parsed_texts q).
Proof.
  unfold raw_texts. rewrite oks_app, !oks_cons. intros ((H1 & H2 & H3 & H4 & H5 & H6 & _) & H7) P. unfold parse_from in P.
  apply bind_ok in P as (p & P1 & P). apply bind_ok in P as (f & P2 & P). apply bind_ok in P as (l & P3 & P). apply bind_ok in P as (s & P4 & P). apply bind_ok in P as (v & P5 & P).
  apply bind_ok in P as (g & P6 & P). apply bind_ok in P as (rf & P7 & P). injection P as <-. apply map_err_ok in P1, P2, P3, P4, P5, P6, P7.
  unfold parsed_texts. cbn [pp_project pp_file pp_library pp_resource pp_view pp_logic pp_resource_files]. rewrite !oks_app. repeat split.
  - exact (ok_project_parse _ _ H1 P1).
  - eapply ok_file_parse; [|  |exact P2]; [now apply ok_split|exact (Forall_nil _)].
  - exact (ok_library_parse _ _ H3 P3).
  - eapply ok_resource_parse; [|  |exact P4]; [now apply ok_split|exact (Forall_nil _)].
  - eapply ok_view_loop; [|  |exact P5]; [now apply ok_split|exact (Forall_nil _)].
  - eapply ok_logic_loop; [|  |exact P6]; [now apply ok_split|exact (Forall_nil _)].
  - destruct (rp_resource_files r) as [ws|]; [|injection P7 as <-; exact (Forall_nil _)]. destruct (res_files_try_from ex ws) as [rf'| |] eqn:E; try discriminate. injection P7 as <-. cbn [maybe] in *.
    eapply ok_rf_collect; [exact H7| |exact E]. exact (Forall_nil _).
Qed.
