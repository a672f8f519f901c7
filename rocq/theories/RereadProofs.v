(** Proofs about what has been read from a data file: its numbers are in range, so it can be written and read again. *)
From Verif Require Import Base Str Dec Flt FltCanon Json JsonProofs Recs RecsProofs M_Color M_File FileProofs M_Library LibraryProofs M_Resource LinesProofs M_View ViewProofs ViewFileProofs M_Logic LogicProofs ReadingProofs M_Date DateProofs M_Project ProjectProofs ProjectReadingProofs EqualProofs SpecEqual P_Files P_View P_Logic P_Project.
From Coq Require Import Lia ZifyN ZifyBool.

(** ** Numbers *)
Lemma int_range lo hi j z : (lo <= 0)%Z -> d_int lo hi j = Some z -> (lo <= z <= hi)%Z.
Proof.
  intros L. unfold d_int. destruct j as [| |n| | |]; try discriminate. destruct (classify n) as [v|v|y|]; try discriminate.
  - destruct (Z.leb_spec (Z.of_N v) hi); [|discriminate]. intros [= <-]. lia.
  - destruct (Z.leb_spec lo v); [|discriminate]. destruct (Z.leb_spec v hi); [|discriminate]. intros [= <-]. lia.
Qed.
Lemma u8_range j n : d_u8 j = Some n -> n < 256.
Proof. unfold d_u8. destruct (d_int 0 255 j) as [z|] eqn:E; [|discriminate]. apply int_range in E; [|lia]. intros [= <-]. lia. Qed.
Lemma u32_range j n : d_u32 j = Some n -> n < 4294967296.
Proof. unfold d_u32. destruct (d_int 0 4294967295 j) as [z|] eqn:E; [|discriminate]. apply int_range in E; [|lia]. intros [= <-]. lia. Qed.
Lemma color_range j c : d_color j = Some c -> cval c < 4294967296.
Proof.
  assert (F : forall x, cval (visit_f64 x) < 4294967296).
  { intros x. unfold visit_f64, color_of_u32. cbn [cval]. change 0xffffffff with (N.ones 32). rewrite N.land_ones. apply N.mod_lt. discriminate. }
  unfold d_color. destruct j as [| |n| | |]; try discriminate. destruct (classify n); try discriminate; intros [= <-]; apply F.
Qed.
Lemma f32_canonical j x : d_f32 j = Some x -> canonical F32 x = true.
Proof.
  assert (N1 : forall y, canonical F32 y = true -> canonical F32 (flt_neg y) = true) by (intros [| | |]; cbn; auto).
  assert (R : forall s P Q, 0 < Q -> canonical F32 (round_ratio F32 s P Q) = true) by (intros; apply round_ratio_canonical; [vm_compute; reflexivity|assumption]).
  unfold d_f32. destruct j as [| |n| | |]; try discriminate. destruct (classify n) as [v|v|y|]; intros H; try discriminate; injection H as <-.
  - apply R. reflexivity.
  - apply N1, R. reflexivity.
  - unfold f32_of_f64. destruct y as [| | |s m e]; try reflexivity. destruct (ratio_of m e) as [P Q] eqn:E. apply R. unfold ratio_of in E. destruct (0 <=? e)%Z; injection E as <- <-; [reflexivity|]. lia.
Qed.
(** ** Records *)
Ltac record_opened H :=
  repeat match type of H with
  | obind ?e _ = Some _ => let E := fresh "E" in destruct e eqn:E; cbn [obind] in H; [|discriminate H]
  | match ?l with [] => _ | _ :: _ => _ end = Some _ => destruct l; [discriminate H || idtac|discriminate H || idtac]
  end; try discriminate H.
Lemma req_all {A} (d : json -> option A) (P : A -> Prop) o x : (forall j y, d j = Some y -> P y) -> req d o = Some x -> P x.
Proof. intros H. destruct o as [j|]; cbn [req]; [apply H|discriminate]. Qed.
Lemma from_str_all {A} (d : json -> option A) (P : A -> Prop) s x : (forall j y, d j = Some y -> P y) -> from_str d s = Some x -> P x.
Proof. intros H. unfold from_str. destruct (parse_json s) as [j|]; cbn [obind]; [apply H|discriminate]. Qed.
Lemma library_item_range j x : d_library_item j = Some x -> li_lib_type x < 256.
Proof. intros H. unfold d_library_item in H. record_opened H. injection H as <-. cbn [li_lib_type]. eapply (req_all d_u8 (fun n => n < 256)); [apply u8_range|eassumption]. Qed.
Lemma resource_item_range j x : d_resource_item j = Some x -> ri_type x < 256.
Proof. intros H. unfold d_resource_item in H. record_opened H. injection H as <-. cbn [ri_type]. eapply (req_all d_u8 (fun n => n < 256)); [apply u8_range|eassumption]. Qed.
Lemma component_range j x : d_component j = Some x -> component_typed x.
Proof. intros H. unfold d_component in H. record_opened H. injection H as <-. unfold component_typed. cbn [co_type]. change (2 ^ 8) with 256. eapply (req_all d_u8 (fun n => n < 256)); [apply u8_range|eassumption]. Qed.
Lemma event_range j x : d_event j = Some x -> event_typed x.
Proof. intros H. unfold d_event in H. record_opened H. injection H as <-. unfold event_typed. cbn [ev_type ev_target_type]. change (2 ^ 8) with 256. split; (eapply (req_all d_u8 (fun n => n < 256)); [apply u8_range|eassumption]). Qed.
Lemma i32_all o z : req d_i32 o = Some z -> (-2 ^ 31 <= z < 2 ^ 31)%Z.
Proof. apply (req_all d_i32 (fun z => (-2 ^ 31 <= z < 2 ^ 31)%Z)). intros j y H. unfold d_i32, d_i8 in H. apply int_range in H; [|lia]. change (-2 ^ 31)%Z with (-2147483648)%Z. change (2 ^ 31)%Z with 2147483648%Z. lia. Qed.
Lemma block_range j x : d_block j = Some x -> block_typed x.
Proof.
  intros H. unfold d_block in H. record_opened H. injection H as <-. unfold block_typed. cbn [bl_color bl_next_block bl_sub_stack1 bl_sub_stack2]. split; [|repeat split; eapply i32_all; eassumption].
  change (2 ^ 32) with 4294967296. eapply (req_all d_color (fun c => cval c < 4294967296)); [apply color_range|eassumption].
Qed.
Lemma size_range j s : d_size j = Some s -> is_size s.
Proof.
  unfold d_size. destruct (d_i32 j) as [z|] eqn:E; [|discriminate]. cbn [obind]. intros [= <-] n. unfold d_i32 in E. apply int_range in E; [|lia]. unfold size_of. destruct (Z.eqb_spec z (-2)); [discriminate|]. destruct (Z.eqb_spec z (-1)); [discriminate|].
  intros [= <-]. unfold P_View.is_i32. change (-2 ^ 31)%Z with (-2147483648)%Z. change (2 ^ 31)%Z with 2147483648%Z. lia.
Qed.
Lemma image_range j x : d_image j = Some x -> is_i16 (ic_rotate x).
Proof.
  intros H. unfold d_image in H. record_opened H. injection H as <-. cbn [ic_rotate]. eapply (req_all d_i16 is_i16); [|eassumption]. intros i y K. unfold d_i16 in K. apply int_range in K; [|lia].
  unfold is_i16. change (-2 ^ 15)%Z with (-32768)%Z. change (2 ^ 15)%Z with 32768%Z. lia.
Qed.
Lemma u32_all o n : req d_u32 o = Some n -> is_u32 n.
Proof. apply (req_all d_u32 is_u32). apply u32_range. Qed.
Lemma u8_all o n : req d_u8 o = Some n -> is_u8 n.
Proof. apply (req_all d_u8 is_u8). apply u8_range. Qed.
Lemma color_all o n : req d_color o = Some n -> is_color n.
Proof. apply (req_all d_color is_color). apply color_range. Qed.
Lemma size_all o n : req d_size o = Some n -> is_size n.
Proof. apply (req_all d_size is_size). apply size_range. Qed.
Lemma i8_all o z : req d_i8 o = Some z -> is_i8 z.
Proof. apply (req_all d_i8 is_i8). intros j y H. unfold d_i32, d_i8 in H. apply int_range in H; [|lia]. unfold is_i8. change (-2 ^ 7)%Z with (-128)%Z. change (2 ^ 7)%Z with 128%Z. lia. Qed.
Lemma layout_range j l : d_layout j = Some l ->
   is_color (lc_background_color l) /\ is_u8 (lc_gravity l) /\ is_size (lc_height l) /\ is_u8 (lc_layout_gravity l) /\
   is_u32 (lc_margin_bottom l) /\ is_u32 (lc_margin_left l) /\ is_u32 (lc_margin_right l) /\ is_u32 (lc_margin_top l) /\
   is_u32 (lc_padding_bottom l) /\ is_u32 (lc_padding_left l) /\ is_u32 (lc_padding_right l) /\ is_u32 (lc_padding_top l) /\
   is_u32 (lc_weight l) /\ is_u32 (lc_weight_sum l) /\ is_size (lc_width l).
Proof.
  intros H. unfold d_layout in H. record_opened H. injection H as <-.
  cbn [lc_background_color lc_gravity lc_height lc_layout_gravity lc_margin_bottom lc_margin_left lc_margin_right lc_margin_top lc_padding_bottom lc_padding_left lc_padding_right lc_padding_top lc_weight lc_weight_sum lc_width].
  repeat match goal with |- _ /\ _ => split end; first [eapply color_all; eassumption|eapply size_all; eassumption|eapply u32_all; eassumption|eapply u8_all; eassumption].
Qed.
Lemma text_range j t : d_text j = Some t -> is_color (tc_hint_color t) /\ is_u32 (tc_line t) /\ is_color (tc_text_color t) /\ is_u32 (tc_text_size t).
Proof.
  intros H. unfold d_text in H. record_opened H. injection H as <-. cbn [tc_hint_color tc_line tc_text_color tc_text_size].
  repeat match goal with |- _ /\ _ => split end; first [eapply color_all; eassumption|eapply u32_all; eassumption].
Qed.
Definition floats (x : android_view) : list flt := [av_alpha x; av_scale_x x; av_scale_y x; av_translation_x x; av_translation_y x].
Lemma view_range j x : d_view j = Some x -> well_typed x /\ Forall (fun f => canonical F32 f = true /\ f <> FNan) (floats x).
Proof.
  assert (F : forall o y, req d_f32 o = Some y -> canonical F32 y = true /\ y <> FNan).
  { intros o y. apply (req_all d_f32 (fun y => canonical F32 y = true /\ y <> FNan)). intros i z H. split; [eapply f32_canonical; eauto|eapply d_f32_number; eauto]. }
  intros H. unfold d_view in H. record_opened H. injection H as <-. unfold well_typed, floats. cbv zeta.
  cbn [av_alpha av_scale_x av_scale_y av_translation_x av_translation_y av_divider_height av_first_day_of_week av_image av_index av_max av_parent_type av_pre_index av_pre_parent_type av_progress av_type av_layout av_text].
  split.
  - repeat match goal with |- _ /\ _ => split end;
      first [eapply u32_all; eassumption|eapply u8_all; eassumption|eapply i8_all; eassumption|eapply i32_all; eassumption|eapply (req_all d_image (fun y => is_i16 (ic_rotate y))); [apply image_range|eassumption]|idtac].
    all: match goal with
         | E : req d_layout _ = Some ?l |- context [?l] => destruct (req_all d_layout _ _ _ layout_range E) as (? & ? & ? & ? & ? & ? & ? & ? & ? & ? & ? & ? & ? & ? & ?); assumption
         | E : req d_text _ = Some ?l |- context [?l] => destruct (req_all d_text _ _ _ text_range E) as (? & ? & ? & ?); assumption end.
  - repeat (constructor; [eapply F; eassumption|]). constructor.
Qed.
(** ** Files of records *)
Lemma library_line_range s x : library_item_parse s = Some x -> li_lib_type x < 256.
Proof. apply (from_str_all d_library_item (fun x => li_lib_type x < 256)). apply library_item_range. Qed.
Lemma resource_line_range s x : resource_item_parse s = Some x -> ri_type x < 256.
Proof. apply (from_str_all d_resource_item (fun x => ri_type x < 256)). apply resource_item_range. Qed.
Lemma ok_or_inv {E A} (e : E) (o : option A) x : ok_or e o = Ok x -> o = Some x.
Proof. destruct o; [now intros [= ->]|discriminate]. Qed.
Lemma component_line_range s x : component_parse s = Ok x -> component_typed x.
Proof. intros H. apply ok_or_inv in H. revert H. apply (from_str_all d_component component_typed). apply component_range. Qed.
Lemma event_line_range s x : event_parse s = Ok x -> event_typed x.
Proof. intros H. apply ok_or_inv in H. revert H. apply (from_str_all d_event event_typed). apply event_range. Qed.
Lemma block_line_range s x : block_parse s = Ok x -> block_typed x.
Proof. intros H. apply ok_or_inv in H. revert H. apply (from_str_all d_block block_typed). apply block_range. Qed.
Lemma view_line_range s x : view_line_parse s = Some x -> well_typed x /\ Forall (fun f => canonical F32 f = true /\ f <> FNan) (floats x).
Proof. apply (from_str_all d_view (fun x => well_typed x /\ Forall (fun f => canonical F32 f = true /\ f <> FNan) (floats x))). apply view_range. Qed.
Definition slot_small (o : option library_item) : Prop := forall x, o = Some x -> li_lib_type x < 256.
Definition lib_small (st : lib_state) : Prop := slot_small (ls_firebase st) /\ slot_small (ls_compat st) /\ slot_small (ls_admob st) /\ slot_small (ls_google_map st).
Lemma lib_set_small s i st : li_lib_type i < 256 -> lib_small st -> lib_small (lib_set s i st).
Proof.
  intros L (A & B & C & D). assert (I : slot_small (Some i)) by (intros x [= <-]; exact L).
  destruct s; unfold lib_small; cbn [lib_set ls_firebase ls_compat ls_admob ls_google_map]; auto.
Qed.
Lemma lib_loop_small k : forall lines st n st', (length lines <= k)%nat -> lib_small st -> lib_loop lines st n = Ok st' -> lib_small st'.
Proof.
  induction k as [|k IH]; intros lines st n st' L H; (destruct lines as [|l r]; cbn [lib_loop]; [intros [= <-]; exact H|]); cbn [length] in L; [lia|].
  destruct (lib_slot_of l) as [s|]; [|apply IH; [lia|exact H]]. destruct r as [|item r]; [discriminate|]. destruct (library_item_parse item) as [i|] eqn:E; [|discriminate].
  cbn [length] in L. apply IH; [lia|]. apply lib_set_small; [eapply library_line_range; eauto|exact H].
Qed.
Lemma library_range s l : library_parse s = Ok l -> forall k, li_lib_type (lib_field k l) < 256.
Proof.
  unfold library_parse. destruct (lib_loop _ _ _) as [st| |] eqn:E; cbn [bind]; try discriminate.
  apply (lib_loop_small _ _ _ _ _ (Nat.le_refl _)) in E; [|repeat split; intros x; discriminate]. destruct E as (A & B & C & D).
  destruct (ls_firebase st) as [f|]; cbn [ok_or bind]; [|discriminate]. destruct (ls_compat st) as [c|]; cbn [ok_or bind]; [|discriminate].
  destruct (ls_admob st) as [a|]; cbn [ok_or bind]; [|discriminate]. destruct (ls_google_map st) as [g|]; cbn [ok_or bind]; [|discriminate].
  intros [= <-] k. destruct k; cbn [lib_field l_firebase l_compat l_admob l_google_map]; auto.
Qed.
Definition resource_small (r : resource) : Prop := Forall (fun i => ri_type i < 256) (rs_images r ++ rs_sounds r ++ rs_fonts r).
Lemma push_small s i r : ri_type i < 256 -> resource_small r -> resource_small (rs_push s i r).
Proof.
  intros L. unfold resource_small. rewrite !Forall_app. intros (A & B & C). assert (X : Forall (fun j => ri_type j < 256) [i]) by (constructor; [exact L|constructor]).
  destruct s; cbn [rs_push rs_images rs_sounds rs_fonts]; rewrite !Forall_app; auto.
Qed.
Lemma resource_loop_small lines : forall sec acc n r, resource_small acc -> resource_loop lines sec acc n = Ok r -> resource_small r.
Proof.
  induction lines as [|l lines IH]; intros sec acc n r H; cbn [resource_loop]; [intros [= <-]; exact H|].
  destruct (str_eqb l (lit "@images")); [now apply IH|]. destruct (str_eqb l (lit "@sounds")); [now apply IH|]. destruct (str_eqb l (lit "@fonts")); [now apply IH|].
  destruct sec; [| | |now apply IH]; (destruct l as [|c l]; [intros [= <-]; exact H|]; destruct (resource_item_parse (c :: l)) as [i|] eqn:E; [|discriminate]; apply IH; apply push_small; [eapply resource_line_range; eauto|exact H]).
Qed.
Lemma resource_range s r : resource_parse s = Ok r -> resource_small r.
Proof. apply resource_loop_small. constructor. Qed.

Lemma pushed_all {A} (P : A -> Prop) xs : forall acc, Forall P acc -> Forall P xs -> Forall P (fold_left (fun m x => vpush x m) xs acc).
Proof.
  induction xs as [|x xs IH]; intros acc H K; [exact H|]. apply Forall_cons_iff in K as [K1 K]. cbn [fold_left]. apply IH; [|exact K]. unfold vpush. rewrite Forall_app. auto.
Qed.
Lemma pool_range {E A} (p : str -> res E A) (P : A -> Prop) lines n r rest : (forall s x, p s = Ok x -> P x) -> pool_loop p vpush lines n [] = Ok (r, rest) -> Forall P r.
Proof.
  intros H L. apply pool_loop_inv in L as (used & tail & xs & _ & _ & _ & F & ->). apply pushed_all; [constructor|]. clear -H F. induction F; constructor; eauto.
Qed.
Lemma components_range s l : component_pool_parse s = Ok l -> Forall component_typed l.
Proof.
  unfold component_pool_parse, component_pool_parse_iter. destruct (pool_loop _ _ _ _ _) as [[r rest]| |] eqn:E; cbn [rmap bind fst]; try discriminate. intros [= <-]. eapply pool_range; [apply component_line_range|exact E].
Qed.
Lemma events_range s l : event_pool_parse s = Ok l -> Forall event_typed l.
Proof.
  unfold event_pool_parse, event_pool_parse_iter. destruct (pool_loop _ _ _ _ _) as [[r rest]| |] eqn:E; cbn [rmap bind fst]; try discriminate. intros [= <-]. eapply pool_range; [apply event_line_range|exact E].
Qed.
Lemma blocks_range s l : block_container_parse s = Ok l -> Forall block_typed l.
Proof.
  unfold block_container_parse, block_container_parse_iter. destruct (pool_loop _ _ _ _ _) as [[r rest]| |] eqn:E; cbn [map_err rmap bind fst]; try discriminate. intros [= <-]. eapply pool_range; [apply block_line_range|exact E].
Qed.

(** ** Views *)
Definition no_field : option json := None.
Lemma d_view_fields j y : d_view j = Some y -> exists fs, sf android_view_names j = Some fs /\
  Forall (fun i => exists z, req d_f32 (nth i fs no_field) = Some z) [2; 24; 25; 28; 29]%nat.
Proof.
  intros H. unfold d_view in H. destruct (sf android_view_names j) as [fs|]; cbn [obind] in H; [|discriminate]. exists fs. split; [reflexivity|].
  record_opened H. clear H. cbn [nth]. repeat (constructor; [eexists; eassumption|]). constructor.
Qed.
Lemma e_view_fields x : exists fs, sf android_view_names (e_view x) = Some fs /\ map (fun i => nth i fs no_field) [2; 24; 25; 28; 29]%nat = map (fun f => Some (e_f32 f)) (floats x).
Proof.
  unfold e_view, android_view_fields, floats. destruct (av_parent x) as [pa|], (av_pre_id x) as [pi|], (av_pre_parent x) as [pp|];
    (eexists; split; [rewrite sf_obj by reflexivity; cbv [android_view_names map assoc String.eqb Ascii.eqb Bool.eqb app e_skip]; reflexivity|]; cbn [map nth]; reflexivity).
Qed.
Lemma d_view_floats x y : d_view (e_view x) = Some y -> Forall (fun f => e_f32 f <> JNull) (floats x).
Proof.
  intros H. apply d_view_fields in H as (fs & E & F). destruct (e_view_fields x) as (fs' & E' & M). rewrite E in E'. injection E' as <-. revert M. generalize (floats x).
  intros l M. apply Forall_forall. intros f Hf Hn. assert (I : In (Some JNull) (map (fun i => nth i fs no_field) [2; 24; 25; 28; 29]%nat)) by (rewrite M, <- Hn; now apply (in_map (fun g => Some (e_f32 g)))).
  apply in_map_iff in I as (i & Ei & Ii). rewrite Forall_forall in F. destruct (F i Ii) as [z Z]. rewrite Ei in Z. discriminate.
Qed.
Lemma view_reread s x : view_line_parse s = Some x -> view_line_parse (view_line_reconstruct x) = Some x <-> finite_floats x.
Proof.
  intros H. apply view_line_range in H as [W F]. split; [|intros K; now apply C13_roundtrip]. unfold view_line_parse, view_line_reconstruct, from_str, to_string.
  assert (C : Forall (fun f => canonical F32 f = true) (view_f32 x)) by (eapply Forall_impl; [|exact F]; intros f [Hf _]; exact Hf).
  rewrite parse_print by now apply e_view_wf. cbn [obind]. intros K. apply d_view_floats in K. unfold finite_floats. fold (floats x). revert F K. generalize (floats x). intros l F K.
  induction F as [|f l [F1 F2] _ IH]; [constructor|]. apply Forall_cons_iff in K as [K1 K]. constructor; [|auto]. split; [exact F1|]. split; [exact F2|]. split; intros ->; now apply K1.
Qed.
Definition view_read (x : android_view) : Prop := well_typed x /\ Forall (fun f => canonical F32 f = true /\ f <> FNan) (floats x).
Definition name_read (k : str) : Prop := ~ In 10 k /\ ~ In 46 k.
Definition file_read (v : view) : Prop :=
  Forall (fun kv => name_read (fst kv) /\ Forall view_read (snd kv)) (vw_layouts v) /\ Forall (fun kv => name_read (fst kv) /\ view_read (snd kv)) (vw_fabs v) /\
  NoDup (map fst (vw_layouts v)) /\ NoDup (map fst (vw_fabs v)).
Lemma inserted_all {V} (P : str * V -> Prop) k v m : P (k, v) -> Forall P m -> Forall P (sinsert k v m).
Proof.
  intros Hv H. unfold sinsert, linsert. apply Forall_app. split; [|constructor; [exact Hv|constructor]]. induction H as [|[k' w] m H1 _ IH]; cbn [lremove]; [constructor|]. destruct (str_eqb k k'); [exact IH|now constructor].
Qed.
Lemma layout_read lines : forall acc c l r c', Forall view_read acc -> layout_parse_iter lines acc c = Ok (l, r, c') -> Forall view_read l /\ exists used, lines = used ++ r.
Proof.
  induction lines as [|s lines IH]; intros acc c l r c' A; cbn [layout_parse_iter]; [intros [= <- <- _]; split; [exact A|now exists []]|]. destruct s as [|x s]; [intros [= <- <- _]; split; [exact A|now exists [[]]]|].
  destruct (view_line_parse (x :: s)) as [v|] eqn:E; [|discriminate]. intros H. apply IH in H as [H1 [used ->]].
  - split; [exact H1|]. now exists ((x :: s) :: used).
  - apply Forall_app. split; [exact A|]. constructor; [eapply view_line_range; eauto|constructor].
Qed.
Lemma loop_read fuel : forall lines acc n v, Forall (fun l => ~ In 10 l) lines -> file_read acc -> view_loop fuel lines acc n = Ok v -> file_read v.
Proof.
  induction fuel as [|k IH]; intros lines acc n v L A; cbn [view_loop]; [discriminate|]. destruct lines as [|l r]; [intros [= <-]; exact A|]. cbv zeta.
  destruct (negb _); [intros [= <-]; exact A|]. destruct (unwrap (bdrop 1 l)) as [rest| |] eqn:EB; cbn [bind]; try discriminate. apply Forall_cons_iff in L as [L1 L].
  assert (L2 : ~ In 10 rest).
  { unfold unwrap in EB. destruct (bdrop 1 l) as [t|] eqn:E; [|discriminate]. injection EB as <-. apply bdrop_spec in E as (a & -> & _). intros H. apply L1, in_or_app. now right. }
  pose proof (split_dot_inv rest) as D. destruct (split_once _ rest) as [[name kind]|]; [|discriminate]. destruct D as [-> D].
  assert (NR : name_read name) by (split; [intros H; apply L2, in_or_app; now left|exact D]).
  destruct A as (A1 & A2 & A3 & A4). destruct (str_eqb kind (lit "xml")).
  { destruct (layout_parse_iter r [] 0) as [[[lay r'] c]| |] eqn:E; try discriminate. apply layout_read in E as [E1 [used ->]]; [|constructor]. apply Forall_app in L as [_ L]. apply IH; [exact L|].
    split; [|split; [exact A2|split; [|exact A4]]]; cbn [vw_layouts]; [now apply inserted_all|now apply sinsert_nodup]. }
  destruct (str_eqb kind (lit "xml_fab")); [|apply IH; [exact L|]; repeat split; assumption]. destruct r as [|f r]; [discriminate|]. destruct (view_line_parse f) as [w|] eqn:E; [|discriminate].
  apply Forall_cons_iff in L as [_ L]. apply IH; [exact L|]. split; [exact A1|split; [|split; [exact A3|]]]; cbn [vw_fabs]; [apply inserted_all; [split; [exact NR|eapply view_line_range; eauto]|exact A2]|now apply sinsert_nodup].
Qed.
Lemma view_file_read s v : view_parse s = Ok v -> file_read v.
Proof. apply loop_read; [apply split_on_In|]. split; [constructor|split; [constructor|split; constructor]]. Qed.
Definition file_finite (v : view) : Prop := Forall (fun kv => Forall finite_floats (snd kv)) (vw_layouts v) /\ Forall (fun kv => finite_floats (snd kv)) (vw_fabs v).
Lemma file_typed v : file_read v -> file_finite v -> view_typed v.
Proof.
  intros (A & B & C & D) [F G]. split; [|split; [|auto]].
  - clear -A F. induction A as [|[k l] m [[N1 N2] H] _ IH]; [constructor|]. apply Forall_cons_iff in F as [F1 F]. cbn [fst snd] in *. constructor; [|auto]. split; [exact N1|]. split; [exact N2|]. cbn [snd].
    clear -H F1. induction H as [|x l [H _] _ IH]; [constructor|]. apply Forall_cons_iff in F1 as [F1 F]. constructor; auto.
  - clear -B G. induction B as [|[k x] m [[N1 N2] [H _]] _ IH]; [constructor|]. apply Forall_cons_iff in G as [F1 G]. cbn [fst snd] in *. constructor; auto.
Qed.
(** ** The lines of a written view file, whatever its floats *)
Definition plain_view (x : android_view) : Prop := Forall (fun f => canonical F32 f = true) (view_f32 x).
Definition plain_file (v : view) : Prop :=
  Forall (fun kv => name_ok (fst kv) /\ Forall plain_view (snd kv)) (vw_layouts v) /\ Forall (fun kv => name_ok (fst kv) /\ plain_view (snd kv)) (vw_fabs v) /\
  NoDup (map fst (vw_layouts v)) /\ NoDup (map fst (vw_fabs v)).
Lemma plain_layout_reconstruct_join l : Forall plain_view l -> layout_reconstruct l = join NL (layout_lines l).
Proof.
  intros H. unfold layout_reconstruct, layout_lines. rewrite join_lines_of. apply trim_fold_post.
  eapply Forall_impl; [|exact H]. apply view_line_clean.
Qed.
Lemma plain_sec_text kv : Forall plain_view (snd kv) ->
  [AT] ++ fst kv ++ lit ".xml" ++ [NL] ++ layout_reconstruct (snd kv) ++ [NL] = join NL (sec_lines kv) ++ [NL].
Proof.
  intros H. unfold sec_lines, xml_header. rewrite plain_layout_reconstruct_join by auto. rewrite <- join_nil_sep by apply lines_of_ne.
  rewrite <- !app_assoc. reflexivity.
Qed.
Lemma plain_view_text v : plain_file v -> view_reconstruct v = trim_end (join NL (all_lines v)).
Proof.
  intros (H1 & H2 & _). unfold view_reconstruct, all_lines. f_equal.
  assert (A : concat (map (fun kv => [AT] ++ fst kv ++ lit ".xml" ++ [NL] ++ layout_reconstruct (snd kv) ++ [NL]) (vw_layouts v)) =
              concat (map (fun s => join NL s ++ [NL]) (map sec_lines (vw_layouts v)))).
  { rewrite map_map. f_equal. apply map_ext_in. intros kv Hkv. apply plain_sec_text. rewrite Forall_forall in H1. now apply H1. }
  assert (B : concat (map (fun kv => [AT] ++ fst kv ++ lit ".xml_fab" ++ [NL] ++ view_line_reconstruct (snd kv) ++ [NL]) (vw_fabs v)) =
              concat (map (fun s => join NL s ++ [NL]) (map fab_lines (vw_fabs v)))).
  { rewrite map_map. f_equal. apply map_ext. intros kv. unfold fab_lines, fab_header. cbn [join]. rewrite <- !app_assoc. reflexivity. }
  assert (C : concat (map (fun s => join NL s ++ [NL]) (map fab_lines (vw_fabs v))) = join NL (concat (map fab_lines (vw_fabs v)) ++ [[]])).
  { rewrite <- join_concat_nl; [|discriminate|apply Forall_map, Forall_forall; discriminate]. cbn [join]. now rewrite app_nil_r. }
  rewrite A, B, C.
  change ([NL] ++ join NL (concat (map fab_lines (vw_fabs v)) ++ [[]])) with ([] ++ NL :: join NL (concat (map fab_lines (vw_fabs v)) ++ [[]])).
  rewrite (join_nil_sep []) by (intros E; apply app_eq_nil in E as [_ E]; discriminate).
  apply join_concat_nl; [discriminate|]. apply Forall_map, Forall_forall. discriminate.
Qed.
Lemma plain_layout_lines_all (P : str -> Prop) l : P [] -> Forall plain_view l -> (forall s, clean_line s -> P s) -> Forall P (layout_lines l).
Proof.
  intros H0 H HP. unfold layout_lines. destruct l as [|x l]; [repeat constructor; auto|]. cbn [lines_of map].
  change (view_line_reconstruct x :: map view_line_reconstruct l) with (map view_line_reconstruct (x :: l)).
  apply Forall_map. eapply Forall_impl; [|exact H]. intros y Hy. apply HP. now apply view_line_clean.
Qed.
Lemma plain_all_lines_all (P : str -> Prop) v : plain_file v -> P [] -> (forall s, clean_line s -> P s) ->
  (forall n, name_ok n -> P (xml_header n)) -> (forall n, name_ok n -> P (fab_header n)) -> Forall P (all_lines v).
Proof.
  intros (H1 & H2 & _) P0 Pc Px Pf. unfold all_lines. apply Forall_app. split.
  - apply Forall_concat, Forall_map. eapply Forall_impl; [|exact H1]. intros kv [Hn Hv]. constructor; auto. now apply plain_layout_lines_all.
  - constructor; auto. apply Forall_app. split; [|repeat constructor; auto].
    apply Forall_concat, Forall_map. eapply Forall_impl; [|exact H2]. intros kv [Hn Hv]. repeat constructor; auto. apply Pc. now apply view_line_clean.
Qed.
Lemma plain_view_lines v : plain_file v -> exists ls k, all_lines v = ls ++ repeat [] k /\ (ls = [] \/ last ls [] <> []) /\
  split_on NL (view_reconstruct v) = lines_of ls.
Proof.
  intros H. destruct (trim_lines (all_lines v)) as (ls & k & E & T & L).
  { apply plain_all_lines_all; auto; [now left|apply clean_line_edge| |]; intros n _; apply header_edge; (discriminate || reflexivity). }
  exists ls, k. split; [auto|split; [auto|]]. rewrite plain_view_text, T by auto. rewrite <- join_lines_of. apply split_join; [apply lines_of_ne|].
  assert (F : Forall (fun s => ~ In NL s) (all_lines v)).
  { assert (HN : forall n s, name_ok n -> ~ In NL s -> ~ In NL ([AT] ++ n ++ s)).
    { intros n s [Hn _] Hs Hi. apply in_app_or in Hi as [Hi|Hi]; [cbn in Hi; destruct Hi as [Hi|[]]; discriminate|].
      apply in_app_or in Hi as [Hi|Hi]; auto. }
    apply plain_all_lines_all; auto; [apply clean_no_nl| |]; intros n Hn; apply HN; auto; nonl. }
  rewrite E in F. apply Forall_app in F as [F _]. destruct ls; auto. cbn. repeat constructor. auto.
Qed.

Lemma view_read_plain x : view_read x -> plain_view x.
Proof. intros [_ F]. eapply Forall_impl; [|exact F]. intros f [Hf _]. exact Hf. Qed.
Lemma file_read_plain v : file_read v -> plain_file v.
Proof.
  intros (A & B & C & D). split; [|split; [|auto]].
  - eapply Forall_impl; [|exact A]. intros kv [H1 H2]. split; [exact H1|]. eapply Forall_impl; [|exact H2]. apply view_read_plain.
  - eapply Forall_impl; [|exact B]. intros kv [H1 H2]. split; [exact H1|]. now apply view_read_plain.
Qed.
(** every view of a file that was read comes from one of its lines *)
Definition from_lines (lines : list str) (x : android_view) : Prop := exists l, In l lines /\ view_line_parse l = Some x.
Lemma layout_from all lines : forall acc c l r c', incl lines all -> Forall (from_lines all) acc -> layout_parse_iter lines acc c = Ok (l, r, c') -> Forall (from_lines all) l /\ incl r all.
Proof.
  induction lines as [|s lines IH]; intros acc c l r c' I A; cbn [layout_parse_iter]; [intros [= <- <- _]; split; [exact A|exact I]|].
  assert (I2 : incl lines all) by (intros z Hz; apply I; now right). destruct s as [|x s]; [intros [= <- <- _]; split; [exact A|exact I2]|].
  destruct (view_line_parse (x :: s)) as [v|] eqn:E; [|discriminate]. apply IH; [exact I2|]. apply Forall_app. split; [exact A|]. constructor; [|constructor]. exists (x :: s). split; [apply I; now left|exact E].
Qed.
Definition file_from (all : list str) (v : view) : Prop := Forall (fun kv => Forall (from_lines all) (snd kv)) (vw_layouts v) /\ Forall (fun kv => from_lines all (snd kv)) (vw_fabs v).
Lemma loop_from all fuel : forall lines acc n v, incl lines all -> file_from all acc -> view_loop fuel lines acc n = Ok v -> file_from all v.
Proof.
  induction fuel as [|k IH]; intros lines acc n v L A; cbn [view_loop]; [discriminate|]. destruct lines as [|l r]; [intros [= <-]; exact A|]. cbv zeta. assert (L2 : incl r all) by (intros z Hz; apply L; now right).
  destruct (negb _); [intros [= <-]; exact A|]. destruct (unwrap _) as [rest| |]; cbn [bind]; try discriminate. destruct (split_once _ rest) as [[name kind]|]; [|discriminate].
  destruct A as [A1 A2]. destruct (str_eqb kind (lit "xml")).
  { destruct (layout_parse_iter r [] 0) as [[[lay r'] c]| |] eqn:E; try discriminate. apply (layout_from all) in E as [E1 E2]; [|exact L2|constructor]. apply IH; [exact E2|]. split; [|exact A2]. cbn [vw_layouts]. now apply inserted_all. }
  destruct (str_eqb kind (lit "xml_fab")); [|apply IH; [exact L2|split; assumption]]. destruct r as [|f r]; [discriminate|]. destruct (view_line_parse f) as [w|] eqn:E; [|discriminate].
  apply IH; [intros z Hz; apply L2; now right|]. split; [exact A1|]. cbn [vw_fabs]. apply inserted_all; [exists f; split; [apply L2; now left|exact E]|exact A2].
Qed.
Lemma lines_finite v : file_read v -> forall x, from_lines (split_on NL (view_reconstruct v)) x -> finite_floats x.
Proof.
  intros H x (l & I & E). destruct (plain_view_lines v (file_read_plain v H)) as (ls & k & EL & _ & S). rewrite S in I.
  assert (J : In l (all_lines v)).
  { rewrite EL. destruct ls as [|a ls]; [|apply in_or_app; now left]. cbn [lines_of] in I. destruct I as [<-|[]]. vm_compute in E. discriminate. }
  assert (W : forall y, view_read y -> view_line_parse (view_line_reconstruct y) = Some x -> finite_floats x).
  { intros y [Y1 Y2] P. assert (FY : finite_floats y).
    { unfold view_line_parse, view_line_reconstruct, from_str, to_string in P. rewrite parse_print in P by (apply e_view_wf; now apply view_read_plain). cbn [obind] in P. apply d_view_floats in P.
      unfold finite_floats. fold (floats y). revert Y2 P. generalize (floats y). intros fl F K.
      induction F as [|f fl [F1 F2] _ IH]; [constructor|]. apply Forall_cons_iff in K as [K1 K]. constructor; [|auto]. split; [exact F1|]. split; [exact F2|]. split; intros ->; now apply K1. }
    rewrite C13_roundtrip in P by assumption. injection P as <-. exact FY. }
  assert (A : forall t, view_line_parse (AT :: t) <> Some x) by (intros t; rewrite view_line_parse_at; discriminate).
  assert (Z : view_line_parse [] <> Some x) by (vm_compute; discriminate).
  destruct H as (H1 & H2 & _). rewrite Forall_forall in H1, H2. unfold all_lines in J. rewrite in_app_iff in J. destruct J as [J|[<-|J]]; [|contradiction|].
  - apply in_concat in J as (sec & J1 & J2). apply in_map_iff in J1 as (kv & <- & J1). destruct (H1 kv J1) as [_ HV]. unfold sec_lines in J2. destruct J2 as [<-|J2]; [now apply A in E|].
    unfold layout_lines in J2. destruct (snd kv) as [|y ys] eqn:EK; [cbn [map lines_of] in J2; destruct J2 as [<-|[]]; contradiction|].
    assert (J3 : In l (map view_line_reconstruct (y :: ys))) by exact J2. apply in_map_iff in J3 as (w & <- & J3). rewrite <- EK in J3. rewrite Forall_forall in HV. exact (W w (HV w J3) E).
  - rewrite in_app_iff in J. destruct J as [J|[<-|[]]]; [|contradiction]. apply in_concat in J as (sec & J1 & J2). apply in_map_iff in J1 as (kv & <- & J1). destruct (H2 kv J1) as [_ HV].
    destruct J2 as [<-|[<-|[]]]; [now apply A in E|]. exact (W _ HV E).
Qed.
Lemma view_file_reread s v : view_parse s = Ok v -> view_parse (view_reconstruct v) = Ok v <-> file_finite v /\ separable_view v.
Proof.
  intros H. apply view_file_read in H. split.
  - intros R. assert (F : file_finite v).
    { assert (FS : file_from (split_on NL (view_reconstruct v)) {| vw_layouts := []; vw_fabs := [] |}) by (split; constructor).
      destruct (loop_from (split_on NL (view_reconstruct v)) _ _ _ _ _ (incl_refl _) FS R) as [F1 F2]. split.
      - eapply Forall_impl; [|exact F1]. intros kv K. eapply Forall_impl; [|exact K]. now apply lines_finite.
      - eapply Forall_impl; [|exact F2]. intros kv K. now apply (lines_finite v H). }
    split; [exact F|]. now apply (C20_exact v (file_typed v H F)).
  - intros [F S]. now apply (C20_exact v (file_typed v H F)).
Qed.

(** ** The project file *)
Lemma valid_second dt : valid_datetime dt = true -> (- 9223372036854775808 <= timestamp_of dt < 9223372036854775808)%Z.
Proof.
  intros V. pose proof (dt_bounds dt V) as (M & D & H & I & S). unfold valid_datetime in V. rewrite !andb_true_iff, !Z.leb_le in V. unfold MIN_YEAR, MAX_YEAR in V.
  assert (Y : (-262143 <= dt_year dt <= 262142)%Z) by tauto. clear V. unfold timestamp_of.
  assert (B : (-1000000000 < days_of_ymd (dt_year dt) (dt_month dt) (dt_day dt) < 1000000000)%Z).
  { unfold days_of_ymd, day_of_cycle. set (y1 := if (dt_month dt <=? 2)%Z then _ else _). assert (-262144 <= y1 < 262143)%Z by (unfold y1; destruct (dt_month dt <=? 2)%Z; lia).
    set (k := if (2 <? dt_month dt)%Z then _ else _). assert (0 <= k <= 21)%Z by (unfold k; destruct (Z.ltb_spec 2 (dt_month dt)); lia).
    pose proof (Z.mod_pos_bound y1 400 ltac:(lia)). clearbody y1 k. set (r := (y1 mod 400)%Z) in *. clearbody r.
    Z.to_euclidean_division_equations. lia. }
  lia.
Qed.
Lemma i64_u64 z : (- 9223372036854775808 <= z < 9223372036854775808)%Z -> i64_of_u64 (u64_of_i64 z) = z.
Proof.
  intros H. unfold i64_of_u64, u64_of_i64. pose proof (Z.mod_pos_bound z 18446744073709551616 ltac:(lia)) as B.
  destruct (Z_lt_le_dec z 0) as [L|L].
  - assert (E : (z mod 18446744073709551616 = z + 18446744073709551616)%Z) by (symmetry; apply (Z.mod_unique_pos _ _ (-1)); lia). rewrite E in *.
    destruct (N.ltb_spec (Z.to_N (z + 18446744073709551616)) 9223372036854775808); lia.
  - rewrite Z.mod_small in * by lia. destruct (N.ltb_spec (Z.to_N z) 9223372036854775808); lia.
Qed.
Lemma date_read s t : date_de s = Ok t -> t < 18446744073709551616 /\ exists dt, datetime_of_timestamp (i64_of_u64 t) = Some dt.
Proof.
  unfold date_de. intros H. repeat (apply bind_ok in H as (? & _ & H)). destruct (valid_datetime _) eqn:V; [|discriminate]. injection H as <-. split.
  - unfold u64_of_i64. pose proof (Z.mod_pos_bound (timestamp_of {| dt_year := x0; dt_month := Z.of_N x2; dt_day := Z.of_N x4; dt_hour := Z.of_N x6; dt_minute := Z.of_N x8; dt_second := Z.of_N x10 |}) 18446744073709551616 ltac:(lia)). lia.
  - eexists. rewrite i64_u64 by now apply valid_second. now apply datetime_rt.
Qed.
Lemma u16_read j n : d_u16_text j = Some n -> n < 65536.
Proof.
  unfold d_u16_text. destruct (d_str j) as [t|]; cbn [obind]; [|discriminate]. unfold parse_u16, parse_uint. cbv zeta. destruct (nat_text 10 _) as [v|]; [|discriminate].
  destruct (v <=? U16MAX) eqn:E; [|discriminate]. intros [= <-]. apply N.leb_le in E. unfold U16MAX in E. lia.
Qed.
Lemma project_read s p : project_parse s = Ok p -> in_range p /\ exists dt, datetime_of_timestamp (i64_of_u64 (pj_date_created p)) = Some dt.
Proof.
  intros H. apply project_parse_iff in H as (kvs & _ & ((v1 & _ & H1) & _ & _ & _ & (v5 & _ & H5) & _ & (v7 & _ & H7) & _ & (v9 & _ & H9) & (c1 & _ & C1) & (c2 & _ & C2) & (c3 & _ & C3) & (c4 & _ & C4) & (c5 & _ & C5) & _)).
  unfold dd in *. apply ok_or_inv in H1, H5, H9. apply u16_read in H1, H5. apply u8_range in H9. apply color_range in C1, C2, C3, C4, C5.
  unfold d_date in H7. apply bind_ok in H7 as (t & _ & H7). apply date_read in H7 as [D1 D2]. split; [|exact D2].
  unfold in_range. change (2 ^ 16) with 65536. change (2 ^ 8) with 256. change (2 ^ 64) with 18446744073709551616. change (2 ^ 32) with 4294967296. tauto.
Qed.
