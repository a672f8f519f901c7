(** Proofs about [M_View.v]. *)
From Verif Require Import Base Str Dec Flt FltProofs Json JsonProofs Recs RecsProofs LinesProofs M_Color ColorProofs M_View.

Definition f32_stable (x : flt) : Prop := d_f32 (e_f32 x) = Some x.
Definition u32_ok (n : N) : Prop := n <= 4294967295.
Definition size_ok (x : size) : Prop :=
  match x with SFixed n => (-2147483648 <= n <= 2147483647 /\ n <> -1 /\ n <> -2)%Z | _ => True end.
Definition image_ok (x : image_config) : Prop := (-32768 <= ic_rotate x <= 32767)%Z.
Definition layout_ok (x : layout_config) : Prop :=
  cval (lc_background_color x) < 4294967296 /\ lc_gravity x <= 255 /\ size_ok (lc_height x) /\ lc_layout_gravity x <= 255 /\
  u32_ok (lc_margin_bottom x) /\ u32_ok (lc_margin_left x) /\ u32_ok (lc_margin_right x) /\ u32_ok (lc_margin_top x) /\
  u32_ok (lc_padding_bottom x) /\ u32_ok (lc_padding_left x) /\ u32_ok (lc_padding_right x) /\ u32_ok (lc_padding_top x) /\
  u32_ok (lc_weight x) /\ u32_ok (lc_weight_sum x) /\ size_ok (lc_width x).
Definition text_ok (x : text_config) : Prop :=
  cval (tc_hint_color x) < 4294967296 /\ u32_ok (tc_line x) /\ cval (tc_text_color x) < 4294967296 /\ u32_ok (tc_text_size x).
Definition view_ok (x : android_view) : Prop :=
  f32_stable (av_alpha x) /\ u32_ok (av_divider_height x) /\ av_first_day_of_week x <= 255 /\ image_ok (av_image x) /\ u32_ok (av_index x) /\
  layout_ok (av_layout x) /\ u32_ok (av_max x) /\ (-128 <= av_parent_type x <= 127)%Z /\ (-2147483648 <= av_pre_index x <= 2147483647)%Z /\
  (-128 <= av_pre_parent_type x <= 127)%Z /\ u32_ok (av_progress x) /\ f32_stable (av_scale_x x) /\ f32_stable (av_scale_y x) /\
  text_ok (av_text x) /\ f32_stable (av_translation_x x) /\ f32_stable (av_translation_y x) /\ av_type x <= 255.

(** ** values *)
Lemma d_b01_e b : d_b01 (e_b01 b) = Some b.
Proof. now destruct b. Qed.
Lemma d_bstr_e b : d_bstr (e_bstr b) = Some b.
Proof. now destruct b. Qed.
Lemma d_choice_e x : d_choice (e_choice x) = Some x. Proof. now destruct x. Qed.
Lemma d_spinner_e x : d_spinner (e_spinner x) = Some x. Proof. now destruct x. Qed.
Lemma d_scale_e x : d_scale (e_scale x) = Some x. Proof. now destruct x. Qed.
Lemma d_orient_e x : d_orient (e_orient x) = Some x. Proof. now destruct x. Qed.
Lemma d_ime_e x : d_ime (e_ime x) = Some x. Proof. now destruct x. Qed.
Lemma d_input_e x : d_input (e_input x) = Some x. Proof. now destruct x. Qed.
Lemma d_text_type_e x : d_text_type (e_text_type x) = Some x. Proof. now destruct x. Qed.
Lemma size_rt x : size_ok x -> size_of (size_num x) = x.
Proof.
  destruct x as [| |n]; try reflexivity. cbn [size_ok size_num]. intros (_ & A & B). unfold size_of.
  apply Z.eqb_neq in A, B. now rewrite A, B.
Qed.
Lemma d_size_e x : size_ok x -> d_size (e_size x) = Some x.
Proof.
  intros H. unfold d_size, e_size, d_i32. rewrite d_int_e_int by (destruct x; cbn in *; lia). cbn [obind]. now rewrite size_rt.
Qed.
Lemma d_u8_eu n : n <= 255 -> d_u8 (e_u n) = Some n. Proof. apply d_u8_e. Qed.
Lemma d_u32_eu n : u32_ok n -> d_u32 (e_u n) = Some n. Proof. apply d_u32_e. Qed.
Lemma d_gravity_e n : n <= 255 -> d_gravity (e_gravity n) = Some n. Proof. apply d_u8_e. Qed.
Lemma d_i8_e n : (-128 <= n <= 127)%Z -> d_i8 (e_int n) = Some n.
Proof. intros H. unfold d_i8. apply d_int_e_int; lia. Qed.
Lemma d_i16_e n : (-32768 <= n <= 32767)%Z -> d_i16 (e_int n) = Some n.
Proof. intros H. unfold d_i16. apply d_int_e_int; lia. Qed.
Lemma d_i32_e n : (-2147483648 <= n <= 2147483647)%Z -> d_i32 (e_int n) = Some n.
Proof. intros H. unfold d_i32. apply d_int_e_int; lia. Qed.

(** ** well-formedness of the output *)
Lemma firstn_digits n s : forallb is_digit s = true -> forallb is_digit (firstn n s) = true.
Proof. revert s; induction n; intros [|c s]; cbn; auto. intros H. apply andb_prop in H as [-> H]. cbn. auto. Qed.
Lemma skipn_digits n s : forallb is_digit s = true -> forallb is_digit (skipn n s) = true.
Proof. revert s; induction n; intros [|c s]; cbn; auto. intros H. apply andb_prop in H as [_ H]. auto. Qed.
Lemma nonempty_digits_intro s : s <> [] -> forallb is_digit s = true -> nonempty_digits s = true.
Proof. now destruct s. Qed.
Lemma zeros_dig n : forallb is_digit (repeat CH_0 n) = true.
Proof. induction n; auto. Qed.
Lemma ryu_wf neg D k : D <> 0 -> wf_num (ryu_num neg D k) = true.
Proof.
  intros HD. pose proof (dec_of_N_digits D) as Dg. pose proof (dec_of_N_nonnil D) as Dn. pose proof (dec_of_N_lead D HD) as Dl.
  unfold ryu_num. set (ds := dec_of_N D) in *. set (len := Z.of_nat (length ds)). set (kk := (len + k)%Z).
  assert (HL : (0 < length ds)%nat) by (destruct ds; [congruence|cbn; lia]).
  destruct ((0 <=? k) && (kk <=? 13))%Z eqn:E1; [|destruct ((0 <? kk) && (kk <=? 13))%Z eqn:E2; [|destruct ((-6 <? kk) && (kk <=? 0))%Z eqn:E3]];
    unfold wf_num; cbn [jint jfrac jexp jneg].
  - rewrite nonempty_digits_intro; [|destruct ds; [congruence|discriminate]|now rewrite forallb_app, Dg, zeros_dig].
    replace (match ds ++ repeat CH_0 (Z.to_nat k) with d :: _ :: _ => negb (d =? 48) | _ => true end) with true; [reflexivity|].
    destruct ds as [|d ds]; [congruence|]. cbn [app hd] in *. apply N.eqb_neq in Dl. rewrite Dl. now destruct (ds ++ _).
  - apply andb_prop in E2 as [E2 E2']. apply Z.ltb_lt in E2. apply Z.leb_le in E2'.
    assert (k < 0)%Z. { rewrite andb_false_iff in E1. destruct E1 as [E1|E1]; [apply Z.leb_gt in E1; lia|apply Z.leb_gt in E1; lia]. }
    rewrite nonempty_digits_intro; [|intros E; apply (f_equal (@length N)) in E; rewrite firstn_length in E; cbn [length] in E; lia|now apply firstn_digits].
    rewrite nonempty_digits_intro; [|intros E; apply (f_equal (@length N)) in E; rewrite skipn_length in E; cbn [length] in E; unfold kk, len in *; lia|now apply skipn_digits].
    replace (match firstn (Z.to_nat kk) ds with d :: _ :: _ => negb (d =? 48) | _ => true end) with true; [reflexivity|].
    destruct ds as [|d ds]; [congruence|]. cbn [hd] in *. destruct (Z.to_nat kk); [reflexivity|]. cbn [firstn]. apply N.eqb_neq in Dl. rewrite Dl. now destruct (firstn n ds).
  - rewrite (nonempty_digits_intro (repeat CH_0 _ ++ ds)); [reflexivity| |now rewrite forallb_app, Dg, zeros_dig].
    destruct (repeat CH_0 (Z.to_nat (- kk))); [auto|discriminate].
  - destruct ds as [|d ds]; [congruence|]. cbn [firstn skipn]. cbn [forallb] in Dg. apply andb_prop in Dg as [Dg1 Dg2].
    rewrite (nonempty_digits_intro [d]) by (try discriminate; cbn; now rewrite Dg1).
    rewrite (nonempty_digits_intro (dec_of_N (Z.to_N (Z.abs (kk - 1))))) by (apply dec_of_N_nonnil || apply dec_of_N_digits).
    destruct ds; [reflexivity|]. rewrite nonempty_digits_intro by (discriminate || auto). reflexivity.
Qed.
Lemma round_dec_0 f neg E : round_dec f neg 0 E = FZero neg.
Proof. unfold round_dec. destruct (0 <=? E)%Z; reflexivity. Qed.
Lemma shortest_nonzero m e D E : 0 < m ->
  shortest false (fun D E => flt_eqb (round_dec F32 false D E) (FFin false m e)) F32 m e = (D, E) -> D <> 0.
Proof.
  intros Hm. unfold shortest. destruct (ratio_of m e) as [P Q].
  destruct (shortest_search _ _ P Q (dexp P Q) (maxdigits F32) 1) as [[D' E']|] eqn:S; intros H.
  - apply search_ok in S. injection H as -> ->. intros ->. rewrite round_dec_0 in S. discriminate.
  - unfold exact_dec in H. destruct (0 <=? e)%Z; injection H as <- _.
    + pose proof (pow2_pos (Z.to_N e)). nia.
    + pose proof (pow5_pos (Z.to_N (- e))). nia.
Qed.
Lemma wf_e_f32 x : canonical F32 x = true -> wf_json (e_f32 x) = true.
Proof.
  destruct x as [|s|s|s m e]; try reflexivity; intros C. unfold e_f32.
  destruct (shortest _ _ F32 m e) as [D E] eqn:S.
  assert (Hm : 0 < m). { unfold canonical in C. rewrite !andb_true_iff, ?N.ltb_lt, ?N.leb_le in C. lia. }
  apply shortest_nonzero in S; auto. destruct (N.eqb_spec (D mod 10) 0); cbn [wf_json]; apply ryu_wf; auto.
  pose proof (N.div_mod D 10). lia.
Qed.
(** ** records *)
Ltac obj_rt names := rewrite sf_obj by reflexivity;
  cbv [names map assoc String.eqb Ascii.eqb Bool.eqb app e_skip obind req dflt].
Ltac one_field :=
  first [ rewrite d_color_e by auto | rewrite d_gravity_e by auto | rewrite d_size_e by auto | rewrite d_u32_eu by auto
        | rewrite d_u8_eu by auto | rewrite d_b01_e | rewrite d_bstr_e | rewrite d_choice_e | rewrite d_spinner_e | rewrite d_scale_e
        | rewrite d_orient_e | rewrite d_ime_e | rewrite d_input_e | rewrite d_text_type_e | rewrite d_i8_e by auto | rewrite d_i16_e by auto
        | rewrite d_i32_e by auto ].
Lemma image_config_wf x : wf_json (e_image x) = true.
Proof.
  unfold e_image. rewrite wf_e_obj. unfold image_config_fields. rewrite forallb_app. cbn [forallb snd].
  rewrite wf_e_int. destruct (ic_res_name x); reflexivity.
Qed.
Lemma d_image_e x : image_ok x -> d_image (e_image x) = Some x.
Proof.
  unfold image_ok. intros H. unfold d_image, e_image, image_config_fields.
  destruct x as [[rn|] ro sc]; cbn [ic_res_name ic_rotate ic_scale_type] in *; obj_rt image_config_names; cbn [d_option d_str e_str option_map]; repeat one_field; reflexivity.
Qed.
Lemma layout_config_wf x : wf_json (e_layout x) = true.
Proof.
  unfold e_layout. rewrite wf_e_obj. unfold layout_config_fields. cbn [forallb snd].
  unfold e_color, e_gravity, e_u, e_size, e_orient. rewrite !wf_e_int. reflexivity.
Qed.
Lemma d_layout_e x : layout_ok x -> d_layout (e_layout x) = Some x.
Proof.
  unfold layout_ok. intros H. decompose [and] H. unfold d_layout, e_layout, layout_config_fields. obj_rt layout_config_names.
  repeat one_field. now destruct x.
Qed.
Lemma text_config_wf x : wf_json (e_text x) = true.
Proof.
  unfold e_text. rewrite wf_e_obj. unfold text_config_fields. cbn [forallb snd].
  unfold e_color, e_ime, e_input, e_u, e_b01, e_u, e_text_type. rewrite !wf_e_int. reflexivity.
Qed.
Lemma d_text_e x : text_ok x -> d_text (e_text x) = Some x.
Proof.
  unfold text_ok. intros H. decompose [and] H. unfold d_text, e_text, text_config_fields. obj_rt text_config_names.
  cbn [d_str e_str]. repeat one_field. now destruct x.
Qed.
Definition view_f32 (x : android_view) : list flt :=
  [av_alpha x; av_scale_x x; av_scale_y x; av_translation_x x; av_translation_y x].
Lemma e_view_wf x : Forall (fun f => canonical F32 f = true) (view_f32 x) -> wf_json (e_view x) = true.
Proof.
  unfold view_f32. rewrite !Forall_cons_iff. intros (A & B & C & D & E & _).
  unfold e_view. rewrite wf_e_obj. unfold android_view_fields. rewrite !forallb_app. cbn [forallb snd].
  rewrite !wf_e_f32 by auto. rewrite image_config_wf, layout_config_wf, text_config_wf.
  unfold e_choice, e_spinner, e_b01, e_u, e_u. rewrite !wf_e_int.
  destruct (av_parent x), (av_pre_id x), (av_pre_parent x); reflexivity.
Qed.
Lemma d_view_e x : view_ok x -> d_view (e_view x) = Some x.
Proof.
  unfold view_ok. intros H. decompose [and] H. unfold d_view, e_view, android_view_fields.
  destruct (av_parent x) as [pa|] eqn:E1, (av_pre_id x) as [pi|] eqn:E2, (av_pre_parent x) as [pp|] eqn:E3; obj_rt android_view_names;
  cbn [d_option d_str e_str option_map];
  repeat match goal with H : f32_stable ?f |- context [d_f32 (e_f32 ?f)] => rewrite H end;
  rewrite ?d_image_e, ?d_layout_e, ?d_text_e by auto; repeat one_field;
  clear - E1 E2 E3; destruct x; cbn in E1, E2, E3; subst; reflexivity.
Qed.
