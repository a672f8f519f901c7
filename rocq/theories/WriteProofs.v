(** Lemmas for P_Write.v: the texts of records and data files. *)
From Coq Require Import Lia.
From Verif Require Import Base Spec Str Dec Flt FltProofs Json JsonProofs Recs LinesProofs M_Color ColorProofs M_File M_Library M_Resource M_Logic M_View M_Date DateProofs M_Project
  FileProofs LogicProofs ViewProofs ViewFileProofs LogicFileProofs SpecJson SpecNumber ShortestProofs UniqueProofs SpecDate DateTextProofs SpecTools ToolProofs P_Project SpecWrite.
Local Open Scope Z_scope.

(** ** Values *)
Lemma separated_join c l : separated [c] l = join c l.
Proof. induction l as [|x l IH]; [reflexivity|]. cbn [separated join]. destruct l; [reflexivity|]. now rewrite IH. Qed.
Lemma hexdig_nth n : (n < 16)%N -> nth_error (lit "0123456789abcdef") (N.to_nat n) = Some (hexdig n).
Proof.
  intros H. rewrite <- (N2Nat.id n) at 2. assert (K : (N.to_nat n < 16)%nat) by lia. revert K. generalize (N.to_nat n). clear. intros m K.
  do 16 (destruct m as [|m]; [reflexivity|]). lia.
Qed.
Lemma escaped_esc c : escaped c (esc_char c).
Proof.
  unfold esc_char. repeat match goal with |- context [(c =? ?k)%N] => destruct (N.eqb_spec c k); [subst c; apply (escaped_short _ (match k with 34%N => "\""" | 92%N => "\\" | 8%N => "\b" | 12%N => "\f" | 10%N => "\n" | 13%N => "\r" | _ => "\t" end)%string); cbn [In escapes]; tauto|] end.
  assert (X : ~ In c (map fst escapes)) by (cbn [map fst escapes In]; lia).
  destruct (N.ltb_spec c 32).
  - apply (escaped_code c (hexdig (c / 16)) (hexdig (c mod 16))); auto; apply hexdig_nth; [apply N.div_lt_upper_bound; lia|apply N.mod_lt; lia].
  - now apply escaped_not.
Qed.
Lemma escaped_fun c t u : escaped c t -> escaped c u -> t = u.
Proof.
  intros [e I|h l L X H1 H2|L X] [e' I'|h' l' L' X' H1' H2'|L' X'];
    try (exfalso; match goal with I : In (c, _) escapes, X : ~ _ |- _ => apply X; apply (in_map fst) in I; exact I end); try lia; try congruence.
  cbn [In escapes] in I, I'. repeat match goal with H : _ \/ _ |- _ => destruct H as [H|H] | H : False |- _ => destruct H end;
    injection I as <- <-; first [discriminate I'|injection I' as <-; reflexivity].
Qed.
Lemma escs_fun s ts us : Forall2 escaped s ts -> Forall2 escaped s us -> ts = us.
Proof. intros H. revert us. induction H; intros us K; inversion K; subst; [reflexivity|]. f_equal; [eapply escaped_fun; eauto|auto]. Qed.
Lemma a_text_iff s t : a_text s t <-> t = print_str s.
Proof.
  assert (W : Forall2 escaped s (map esc_char s)) by (induction s; cbn [map]; constructor; [apply escaped_esc|assumption]). split.
  - intros (es & F & ->). rewrite (escs_fun _ _ _ F W). reflexivity.
  - intros ->. exists (map esc_char s). split; [exact W|reflexivity].
Qed.
Lemma numeral_int n t : numeral n t -> int_text t.
Proof.
  intros ((Dn & D) & V & L). destruct t as [|c t]; [congruence|]. inversion D as [|? ? Dc Dt]; subst. destruct (N.eq_dec c 48) as [->|X].
  - rewrite (L t eq_refl). constructor.
  - constructor; [lia|assumption].
Qed.
Lemma numeral_iff n t : numeral n t <-> t = dec_of_N n.
Proof.
  split; [|intros ->; apply dec_numeral]. intros H. pose proof (dec_numeral n) as K. apply int_inj; [eapply numeral_int; eauto..|].
  destruct H as (_ & -> & _), K as (_ & -> & _). reflexivity.
Qed.
(** the relation holds of exactly the text of the value *)
Definition means (R : str -> Prop) (j : json) : Prop := forall t, R t <-> t = print_json j.
Lemma means_text s : means (a_text s) (e_str s). Proof. intros t. apply a_text_iff. Qed.
Lemma number_iff z t : a_number z t <-> t = dec_of_Z z.
Proof.
  unfold a_number. split.
  - intros (d & H & ->). apply numeral_iff in H as ->. destruct z; reflexivity.
  - intros ->. exists (dec_of_N (Z.abs_N z)). split; [apply dec_numeral|]. destruct z; reflexivity.
Qed.
Lemma print_int z : print_json (e_int z) = dec_of_Z z.
Proof. destruct z; unfold e_int, e_nat, dec_of_Z, print_json, print_num; cbn [jneg jint jfrac jexp app]; now rewrite !app_nil_r. Qed.
Lemma means_number z : means (a_number z) (e_int z). Proof. intros t. rewrite print_int. apply number_iff. Qed.
Lemma means_count n : means (a_count n) (e_int (Z.of_N n)). Proof. apply means_number. Qed.
Lemma means_flag b : means (a_flag b) (e_b01 b). Proof. intros t. destruct b; reflexivity. Qed.
Lemma means_truth b : means (a_truth b) (e_bstr b). Proof. intros t. destruct b; reflexivity. Qed.
Lemma means_bool b : means (a_bool b) (JBool b). Proof. intros t. destruct b; reflexivity. Qed.
Lemma means_code {A} (table : list (Z * A)) a z : In (z, a) table -> (forall z', In (z', a) table -> z' = z) -> means (a_code table a) (e_int z).
Proof.
  intros I U t. rewrite print_int, <- number_iff. split; [|intros H; now exists z]. intros (z' & I' & H). now rewrite <- (U z' I').
Qed.
Lemma means_name {A} (table : list (string * A)) a s : In (s, a) table -> (forall s', In (s', a) table -> s' = s) -> concat (map esc_char (lit s)) = lit s ->
  means (a_name table a) (e_str (lit s)).
Proof.
  intros I U P t. cbn [e_str print_json print_ostr]. unfold print_str. rewrite P. split.
  - intros (s' & I' & ->). now rewrite (U s' I').
  - intros ->. exists s. split; [exact I|reflexivity].
Qed.
Lemma means_colour c : (cval c < 2 ^ 32)%N -> means (a_colour c) (e_color c).
Proof.
  intros H t. unfold e_color. rewrite print_int. assert (R : - 2 ^ 31 <= i32_of_u32 (cval c) < 2 ^ 31 /\ Z.of_N (cval c) = i32_of_u32 (cval c) mod 2 ^ 32).
  { unfold i32_of_u32. change (2 ^ 31) with 2147483648. change (2 ^ 32) with 4294967296 in *. change (2 ^ 32)%N with 4294967296%N in H.
    destruct (N.ltb_spec (cval c) 2147483648).
    - split; [lia|]. rewrite Z.mod_small; lia.
    - split; [lia|]. replace (Z.of_N (cval c) - 4294967296) with (Z.of_N (cval c) + (-1) * 4294967296) by lia. rewrite Z.mod_add by lia. rewrite Z.mod_small; lia. }
  destruct R as [R1 R2]. rewrite <- number_iff. split; [|intros T; now exists (i32_of_u32 (cval c))].
  intros (z & T & Z1 & Z2). replace (i32_of_u32 (cval c)) with z; [exact T|]. rewrite Z2 in R2. revert R1 R2 Z1. generalize (i32_of_u32 (cval c)) as y.
  change (2 ^ 31) with 2147483648. change (2 ^ 32) with 4294967296. clear. intros y Y E Z1.
  pose proof (Z.div_mod z 4294967296). pose proof (Z.div_mod y 4294967296). lia.
Qed.
Lemma means_list {A} (R : A -> str -> Prop) (e : A -> json) l : (forall a, means (R a) (e a)) -> means (a_list R l) (JArr (map e l)).
Proof.
  intros M t. cbn [print_json]. rewrite map_map. change (91%N :: ?x) with (lit "[" ++ x). split.
  - intros (ts & F & ->). change (lit ",") with [44%N]. rewrite separated_join. f_equal. f_equal. f_equal. induction F as [|a t l ts Ha F IH]; [reflexivity|]. cbn [map]. f_equal; [now apply M|exact IH].
  - intros ->. exists (map (fun a => print_json (e a)) l). split; [|change (lit ",") with [44%N]; now rewrite separated_join].
    induction l; cbn [map]; constructor; [now apply M|assumption].
Qed.
Definition plain (k : string) : Prop := concat (map esc_char (lit k)) = lit k.
Definition object_text (l : list (string * str)) : str :=
  lit "{" ++ separated (lit ",") (map (fun nv => lit """" ++ lit (fst nv) ++ lit """:" ++ snd nv) l) ++ lit "}".
Lemma print_obj js : Forall (fun kj => plain (fst kj)) js -> print_json (e_obj js) = object_text (map (fun kj => (fst kj, print_json (snd kj))) js).
Proof.
  intros P. unfold object_text. cbn [e_obj print_json]. change (123%N :: ?x) with (lit "{" ++ x). change (lit ",") with [44%N]. rewrite separated_join, !map_map.
  f_equal. f_equal. f_equal. apply map_ext_in. intros kj K. rewrite Forall_forall in P. specialize (P kj K). cbn [fst snd print_ostr]. unfold print_str. rewrite P.
  change (lit """") with [34%N]. change (lit """:") with [34%N; 58%N]. cbn [app]. now rewrite <- app_assoc.
Qed.
Lemma object_iff fs t : an_object fs t <-> exists ts, Forall2 (fun f v => snd f v) fs ts /\ t = object_text (combine (map fst fs) ts).
Proof. reflexivity. Qed.
Definition field_means (f : string * (str -> Prop)) (kj : string * json) : Prop := fst f = fst kj /\ plain (fst kj) /\ means (snd f) (snd kj).
Definition field_says (f : string * (str -> Prop)) (kj : string * json) : Prop := fst f = fst kj /\ plain (fst kj) /\ snd f (print_json (snd kj)).
Lemma object_says fs js : Forall2 field_says fs js -> an_object fs (print_json (e_obj js)).
Proof.
  intros F. rewrite print_obj by (clear -F; induction F as [|f k fs js H F IH]; constructor; [apply H|exact IH]). apply object_iff. exists (map (fun kj => print_json (snd kj)) js).
  split; [clear -F; induction F as [|f k fs js H F IH]; cbn [map]; constructor; [apply H|exact IH]|]. f_equal.
  induction F as [|f k fs js H F IH]; cbn [map combine]; [reflexivity|]. rewrite <- IH. f_equal. destruct H as (-> & _). reflexivity.
Qed.
Lemma means_says f kj : field_means f kj -> field_says f kj. Proof. intros (A & B & C). repeat split; auto. now apply C. Qed.
Lemma means_object fs js : Forall2 field_means fs js -> means (an_object fs) (e_obj js).
Proof.
  intros F t. split.
  - intros (ts & T & ->). rewrite print_obj by (clear -F; induction F as [|f k fs js H F IH]; constructor; [apply H|exact IH]).
    assert (X : combine (map fst fs) ts = map (fun kj => (fst kj, print_json (snd kj))) js); [|unfold object_text; now rewrite X].
    revert ts T. induction F as [|f k fs js H F IH]; intros ts T; inversion T as [|? v ? ts' V T']; subst; [reflexivity|]. cbn [map combine]. rewrite (IH ts' T'). f_equal.
    destruct H as (-> & _ & M). apply M in V as ->. reflexivity.
  - intros ->. apply object_says. clear -F. induction F; constructor; auto. now apply means_says.
Qed.
Lemma if_any_means {A} k (R : A -> str -> Prop) e (o : option A) : plain k -> (forall a, means (R a) (e a)) -> Forall2 field_means (if_any k R o) (match o with Some a => [(k, e a)] | None => [] end).
Proof. intros P M. destruct o; cbn [if_any]; repeat constructor; auto; apply M. Qed.
Lemma num_chars n : number_chars n = print_num n.
Proof. unfold number_chars, print_num. destruct (jneg n), (jfrac n), (jexp n) as [[[] ?]|]; reflexivity. Qed.
Lemma means_float x : canonical F32 x = true -> means (a_float x) (e_f32 x).
Proof.
  intros C t. destruct x as [|s|s|s m e].
  - split; [now inversion 1|intros ->; constructor].
  - split; [now inversion 1|intros ->; constructor].
  - split; [now inversion 1; destruct s|intros ->; destruct s; [apply (float_zero true)|apply (float_zero false)]].
  - destruct (e_f32_shortest s m e C) as (D & E & n & S & J & ->). cbn [print_json]. rewrite <- num_chars. split; [|intros ->; econstructor; eauto].
    inversion 1 as [|s' m' e' D' E' n' S' J'| |]; subst. destruct (shortest_unique false F32 s m e D E D' E' enough_F32 C S S') as [<- <-].
    now rewrite (json_unique s D E n n' (interval_nonzero F32 s m e D E (proj1 enough_F32) C (proj1 S)) J J').
Qed.

(** ** Records *)
Ltac in_table := cbn [In]; intros ? IT; repeat match type of IT with _ \/ _ => destruct IT as [IT|IT] end; first [destruct IT; fail|congruence|discriminate].
Ltac code num := match goal with |- means (a_code ?t ?x) _ => destruct x; apply (means_code t _ num); [cbn [In]; tauto|in_table] end.
Ltac mean := first [apply means_text|apply means_count|apply means_number|apply means_flag|apply means_truth|apply means_bool|apply means_colour; assumption].
Ltac mfield tac := split; [reflexivity|split; [reflexivity|cbn [fst snd]; tac]].
Ltac mfields tac := repeat first [apply Forall2_nil|apply Forall2_cons; [mfield tac|]].
Lemma means_file_type t : means (a_code [(0, FtActivity); (1, FtCustomView); (2, FtDrawer)] t) (e_int (Z.of_N (file_type_num t))).
Proof. destruct t; apply means_code; cbn [In file_type_num Z.of_N]; [tauto|in_table|tauto|in_table|tauto|in_table]. Qed.
Lemma means_keyboard t : means (a_code [(0, KbUnspecified); (1, KbVisible); (2, KbHidden)] t) (e_int (Z.of_N (keyboard_num t))).
Proof. destruct t; apply means_code; cbn [In keyboard_num Z.of_N]; [tauto|in_table|tauto|in_table|tauto|in_table]. Qed.
Lemma means_orientation t : means (a_code [(0, OrPortrait); (1, OrLandscape); (2, OrBoth)] t) (e_int (Z.of_N (orientation_num t))).
Proof. destruct t; apply means_code; cbn [In orientation_num Z.of_N]; [tauto|in_table|tauto|in_table|tauto|in_table]. Qed.
Lemma means_theme t : means (a_code [(-1, ThNone); (0, ThDefault); (1, ThActionbar); (2, ThFullscreen)] t) (e_int (theme_num t)).
Proof. destruct t; apply means_code; cbn [In theme_num]; first [tauto|in_table]. Qed.
Lemma means_options o : means (a_number (options_sum o)) (e_int (Z.of_N (options_as_num o))).
Proof. replace (Z.of_N (options_as_num o)) with (options_sum o); [apply means_number|]. destruct o as [[] [] [] []]; reflexivity. Qed.
Lemma file_item_means x : means (file_item_writes x) (e_file_item x).
Proof.
  apply means_object. mfields ltac:(first [apply means_file_type|apply means_keyboard|apply means_options|apply means_orientation|apply means_theme|mean]).
Qed.
Lemma ad_unit_means x : means (ad_unit_writes x) (e_ad_unit x).
Proof. apply means_object. mfields ltac:(mean). Qed.
Lemma library_item_means x : means (library_item_writes x) (e_library_item x).
Proof.
  apply means_object. mfields ltac:(first [apply (means_list ad_unit_writes e_ad_unit); apply ad_unit_means|apply (means_list a_text e_str); apply means_text|mean]).
Qed.
Lemma resource_item_means x : means (resource_item_writes x) (e_resource_item x).
Proof. apply means_object. mfields ltac:(mean). Qed.
Lemma component_means x : means (component_writes x) (e_component x).
Proof. apply means_object. mfields ltac:(mean). Qed.
Lemma event_means x : means (event_writes x) (e_event x).
Proof. apply means_object. mfields ltac:(mean). Qed.
Lemma block_means x : (cval (bl_color x) < 2 ^ 32)%N -> means (block_writes x) (e_block x).
Proof. intros C. apply means_object. mfields ltac:(first [apply (means_list a_text e_str); apply means_text|mean]). Qed.
Lemma means_scale s : means (a_name [("CENTER", ScCenter); ("FIT_XY", ScFitXy); ("FIT_START", ScFitStart); ("FIT_CENTER", ScFitCenter);
      ("FIT_END", ScFitEnd); ("CENTER_CROP", ScCenterCrop); ("CENTER_INSIDE", ScCenterInside)]%string s) (e_scale s).
Proof. destruct s; apply means_name; cbn [In]; first [tauto|reflexivity|in_table]. Qed.
Lemma image_means x : means (image_writes x) (e_image x).
Proof.
  apply means_object. apply Forall2_app; [apply (if_any_means _ a_text e_str); [reflexivity|apply means_text]|]. mfields ltac:(first [apply means_scale|mean]).
Qed.
Lemma means_size s : means (a_size s) (e_size s). Proof. apply means_number. Qed.
Lemma means_orient s : means (a_code [(1, LoVertical); (0, LoUnspecified); (-1, LoHorizontal)] s) (e_orient s).
Proof. destruct s; apply means_code; cbn [In layout_orientation_num]; first [tauto|in_table]. Qed.
Lemma layout_means x : (cval (lc_background_color x) < 2 ^ 32)%N -> means (layout_writes x) (e_layout x).
Proof. intros C. apply means_object. mfields ltac:(first [apply means_orient|apply means_size|mean]). Qed.
Lemma means_ime s : means (a_code [(0, ImeNormal); (1, ImeNone); (2, ImeGo); (3, ImeSearch); (4, ImeSend); (5, ImeNext); (6, ImeDone)] s) (e_ime s).
Proof. destruct s; apply means_code; cbn [In ime_option_num]; first [tauto|in_table]. Qed.
Lemma means_input s : means (a_code [(8194, ItNumberDecimal); (4098, ItNumberSigned); (12290, ItNumberSignedDecimal); (129, ItPassword); (3, ItPhone); (1, ItText)] s) (e_input s).
Proof. destruct s; apply means_code; cbn [In input_type_num]; first [tauto|in_table]. Qed.
Lemma means_text_type s : means (a_code [(0, TtNormal); (1, TtBold); (2, TtItalic); (3, TtBoldItalic)] s) (e_text_type s).
Proof. destruct s; apply means_code; cbn [In text_type_num]; first [tauto|in_table]. Qed.
Lemma text_means x : (cval (tc_hint_color x) < 2 ^ 32)%N -> (cval (tc_text_color x) < 2 ^ 32)%N -> means (text_writes x) (M_View.e_text x).
Proof. intros C D. apply means_object. mfields ltac:(first [apply means_ime|apply means_input|apply means_text_type|mean]). Qed.
Lemma means_choice s : means (a_code [(0, CmNone); (1, CmSingle); (2, CmMulti)] s) (e_choice s).
Proof. destruct s; apply means_code; cbn [In choice_mode_num]; first [tauto|in_table]. Qed.
Lemma means_spinner s : means (a_code [(0, SmDialog); (1, SmDropdown)] s) (e_spinner s).
Proof. destruct s; apply means_code; cbn [In spinner_mode_num]; first [tauto|in_table]. Qed.
Ltac floats F := apply means_float; rewrite Forall_forall in F; apply F; cbn [In]; tauto.
Lemma view_means x : view_bits x -> means (view_writes x) (e_view x).
Proof.
  intros (CC & F). rewrite !Forall_cons_iff in CC. destruct CC as (C1 & C2 & C3 & _). apply means_object. unfold android_view_fields.
  pose proof (image_means (av_image x)) as MI. pose proof (layout_means _ C1) as ML. pose proof (text_means _ C2 C3) as MT.
  repeat apply Forall2_app; try (apply (if_any_means _ a_text e_str); [reflexivity|apply means_text]);
    mfields ltac:(first [exact MI|exact ML|exact MT|floats F|apply means_choice|apply means_spinner|mean]).
Qed.
Lemma view_says x : view_bits x -> view_writes x (view_line_reconstruct x).
Proof. intros H. now apply view_means. Qed.
(** ** Projects *)
Lemma esc_plain s : Forall (fun c => 32 <= c /\ c <> 34 /\ c <> 92)%N s -> concat (map esc_char s) = s.
Proof.
  induction 1 as [|c s (A & B & C) F IH]; [reflexivity|]. cbn [map concat]. rewrite IH. unfold esc_char.
  repeat match goal with |- context [(c =? ?k)%N] => destruct (N.eqb_spec c k); [lia|] end. destruct (N.ltb_spec c 32); [lia|reflexivity].
Qed.
Lemma dec_chars n : Forall (fun c => 32 <= c /\ c <> 34 /\ c <> 92)%N (dec_of_N n).
Proof. destruct (dec_numeral n) as ((_ & D) & _). eapply Forall_impl; [|exact D]. cbn. lia. Qed.
Lemma decz_chars z : Forall (fun c => 32 <= c /\ c <> 34 /\ c <> 92)%N (dec_of_Z z).
Proof. destruct z; unfold dec_of_Z; [apply dec_chars|apply dec_chars|constructor; [lia|apply dec_chars]]. Qed.
Lemma means_number_text n : means (a_number_text n) (e_u16_text n).
Proof.
  intros t. unfold e_u16_text. cbn [e_str print_json print_ostr]. unfold print_str. rewrite esc_plain by apply dec_chars. split.
  - intros (d & H & ->). apply numeral_iff in H as ->. reflexivity.
  - intros ->. exists (dec_of_N n). split; [apply dec_numeral|reflexivity].
Qed.
Lemma numbers_iff zs ds : Forall2 a_number zs ds <-> ds = map dec_of_Z zs.
Proof.
  split.
  - induction 1 as [|z d zs ds H F IH]; [reflexivity|]. cbn [map]. apply number_iff in H as ->. now rewrite IH.
  - intros ->. induction zs; cbn [map]; constructor; [now apply number_iff|assumption].
Qed.
Lemma second_inj zs zs' t : second_of zs t -> second_of zs' t -> zs = zs'.
Proof.
  intros (y & m & d & h & mi & s & n & -> & D & H1 & H2 & H3 & E) (y' & m' & d' & h' & mi' & s' & n' & -> & D' & H1' & H2' & H3' & E').
  assert (n = n' /\ h = h' /\ mi = mi' /\ s = s') as (-> & -> & -> & ->) by lia.
  apply day_number_spec in D as [V K], D' as [V' K'].
  assert (X : (y, m, d) = (y', m', d')) by (rewrite <- (ymd_of_days_of y m d V), <- (ymd_of_days_of y' m' d' V'); congruence). congruence.
Qed.
Lemma i64_mod v : (v < 2 ^ 64)%N -> - 2 ^ 63 <= i64_of_u64 v < 2 ^ 63 /\ Z.of_N v = i64_of_u64 v mod 2 ^ 64.
Proof.
  intros H. unfold i64_of_u64. change (2 ^ 63) with 9223372036854775808. change (2 ^ 64) with 18446744073709551616. change (2 ^ 64)%N with 18446744073709551616%N in H.
  destruct (N.ltb_spec v 9223372036854775808).
  - split; [lia|]. rewrite Z.mod_small; lia.
  - split; [lia|]. replace (Z.of_N v - 18446744073709551616) with (Z.of_N v + (-1) * 18446744073709551616) by lia. rewrite Z.mod_add by lia. rewrite Z.mod_small; lia.
Qed.
Lemma means_date t dt : (t < 2 ^ 64)%N -> datetime_of_timestamp (i64_of_u64 t) = Some dt -> means (a_date t) (e_str (date_text dt)).
Proof.
  intros H D. apply C25_seconds in D as [S _]. destruct (i64_mod t H) as [R M]. intros u.
  set (zs := [dt_year dt; dt_month dt; dt_day dt; dt_hour dt; dt_minute dt; dt_second dt]) in *.
  assert (T : date_text dt = concat (map dec_of_Z zs)) by (unfold date_text, zs; cbn [map concat]; now rewrite app_nil_r).
  assert (P : print_json (e_str (date_text dt)) = lit """" ++ date_text dt ++ lit """").
  { cbn [e_str print_json print_ostr]. unfold print_str. rewrite esc_plain; [reflexivity|]. rewrite T. apply Forall_concat, Forall_map, Forall_forall. intros z _. apply decz_chars. }
  rewrite P, T. split.
  - intros (zs' & s & ds & F & S' & R' & M' & ->). apply numbers_iff in F as ->. assert (s = i64_of_u64 t).
    { rewrite M in M'. revert R R' M'. generalize (i64_of_u64 t) as y. change (2 ^ 63) with 9223372036854775808. change (2 ^ 64) with 18446744073709551616. clear. intros y Y Z1 E.
      pose proof (Z.div_mod s 18446744073709551616). pose proof (Z.div_mod y 18446744073709551616). lia. }
    subst s. now rewrite (second_inj _ _ _ S' S).
  - intros ->. exists zs, (i64_of_u64 t), (map dec_of_Z zs). split; [now apply numbers_iff|]. auto.
Qed.
Lemma project_means x t : in_range x -> project_reconstruct x = Ok t -> forall u, project_writes x u <-> u = t.
Proof.
  intros (R1 & R2 & R3 & R4 & R5 & R6 & R7 & R8 & R9) H. unfold project_reconstruct, date_ser in H. destruct (datetime_of_timestamp _) as [dt|] eqn:D; [|discriminate].
  cbn [bind] in H. assert (E : t = print_json (e_project x (date_text dt))) by congruence. subst t. apply means_object.
  mfields ltac:(first [apply means_number_text|apply (means_date _ _ R4 D)|mean]).
Qed.

(** ** Data files *)
Lemma Forall2_means {A} (R : A -> str -> Prop) (w : A -> str) l : (forall a, In a l -> R a (w a)) -> Forall2 R l (map w l).
Proof. induction l as [|a l IH]; intros H; cbn [map]; constructor; [apply H; now left|]. apply IH. intros b B. apply H. now right. Qed.
Lemma Forall2_fun {A} (R : A -> str -> Prop) (w : A -> str) l ts : (forall a t, R a t -> t = w a) -> Forall2 R l ts -> ts = map w l.
Proof. intros H F. induction F as [|a t l ts X F IH]; [reflexivity|]. cbn [map]. rewrite IH. f_equal. now apply H. Qed.
Lemma file_items_means l ts : Forall2 file_item_writes l ts <-> ts = map file_item_reconstruct l.
Proof.
  split; [apply Forall2_fun; intros a t; apply file_item_means|intros ->; apply Forall2_means; intros a _; now apply file_item_means].
Qed.
Lemma file_means f t : file_writes f t <-> t = file_reconstruct f.
Proof.
  unfold file_reconstruct. rewrite !file_items_text_join. split.
  - intros (as_ & cs & A & C & ->). apply file_items_means in A as ->, C as ->. unfold NEWLINE. now rewrite !separated_join.
  - intros ->. exists (map file_item_reconstruct (f_activities f)), (map file_item_reconstruct (f_custom_views f)). split; [now apply file_items_means|]. split; [now apply file_items_means|].
    unfold NEWLINE. now rewrite !separated_join.
Qed.
Lemma library_means l t : library_writes l t <-> t = library_reconstruct l.
Proof.
  assert (E : library_reconstruct l = separated NEWLINE [lit "@firebaseDB"; library_item_reconstruct (l_firebase l); lit "@compat"; library_item_reconstruct (l_compat l);
    lit "@admob"; library_item_reconstruct (l_admob l); lit "@googleMap"; library_item_reconstruct (l_google_map l)]) by reflexivity.
  rewrite E. split.
  - intros (a & b & c & d & A & B & C & D & ->). apply library_item_means in A as ->, B as ->, C as ->, D as ->. reflexivity.
  - intros ->. exists (library_item_reconstruct (l_firebase l)), (library_item_reconstruct (l_compat l)), (library_item_reconstruct (l_admob l)), (library_item_reconstruct (l_google_map l)).
    repeat split; now apply library_item_means.
Qed.
Lemma resource_items_means l ts : Forall2 resource_item_writes l ts <-> ts = map resource_item_reconstruct l.
Proof.
  split; [apply Forall2_fun; intros a t; apply resource_item_means|intros ->; apply Forall2_means; intros a _; now apply resource_item_means].
Qed.
Lemma items_sep l h rest : resource_items_text l ++ h ++ rest = separated NEWLINE (map resource_item_reconstruct l ++ [h]) ++ rest.
Proof.
  unfold resource_items_text. rewrite fold_post. cbn [app]. induction l as [|a l IH]; [reflexivity|]. cbn [map concat app separated]. 
  destruct (map resource_item_reconstruct l ++ [h]) as [|x r] eqn:E; [now destruct l|]. rewrite <- !app_assoc, IH. reflexivity.
Qed.
Lemma sep_app (a b : list str) : a <> [] -> b <> [] -> separated NEWLINE (a ++ b) = separated NEWLINE a ++ NEWLINE ++ separated NEWLINE b.
Proof. intros A B. unfold NEWLINE. rewrite !separated_join. now apply join_app. Qed.
Ltac ne_app := let X := fresh in intros X; apply app_eq_nil in X as [_ X]; discriminate X.
Lemma resource_means r t : resource_writes r t <-> t = resource_reconstruct r.
Proof.
  assert (E : resource_reconstruct r = separated NEWLINE (lit "@images" :: map resource_item_reconstruct (rs_images r) ++ lit "@sounds" :: map resource_item_reconstruct (rs_sounds r) ++ [lit "@fonts"]) ++
    NEWLINE ++ separated NEWLINE (map resource_item_reconstruct (rs_fonts r))).
  { unfold resource_reconstruct. assert (F : trim (resource_items_text (rs_fonts r)) = join NL (map resource_item_reconstruct (rs_fonts r))).
    { unfold resource_items_text. apply trim_fold_post. apply Forall_forall. intros; apply resource_item_clean. }
    rewrite F. unfold NEWLINE at 2 3. rewrite separated_join. 
    change (lit "@images" :: ?x) with ([lit "@images"] ++ x). rewrite sep_app; [|discriminate|ne_app].
    change (?x ++ lit "@sounds" :: ?y) with (x ++ [lit "@sounds"] ++ y). rewrite (app_assoc (map resource_item_reconstruct (rs_images r)) [lit "@sounds"]), sep_app; [|ne_app|ne_app].
    rewrite !items_sep, <- !app_assoc. reflexivity. }
  rewrite E. split.
  - intros (is & ss & fs & A & B & C & ->). apply resource_items_means in A as ->, B as ->, C as ->. reflexivity.
  - intros ->. eexists _, _, _. split; [now apply resource_items_means|]. split; [now apply resource_items_means|]. split; [now apply resource_items_means|]. reflexivity.
Qed.
Lemma bits_clean x : view_bits x -> clean_line (view_line_reconstruct x).
Proof. intros (_ & F). now apply view_line_clean. Qed.
Lemma repeat_snoc {A} (x : A) k : repeat x (S k) = repeat x k ++ [x].
Proof. induction k as [|k IH]; [reflexivity|]. cbn [repeat app]. now rewrite <- IH. Qed.
Lemma join_blank_end ls k : ls <> [] -> join NL (ls ++ repeat [] k) = join NL ls ++ repeat NL k.
Proof.
  intros H. induction k as [|k IH]; [now rewrite !app_nil_r|]. rewrite !repeat_snoc, !app_assoc. rewrite join_app_nl; [now rewrite IH|].
  intros X. apply app_eq_nil in X as [X _]. auto.
Qed.
Lemma join_blank k : exists j, join NL (repeat [] k) = repeat NL j.
Proof.
  destruct k as [|k]; [now exists 0%nat|]. exists k. change (repeat [] (S k)) with ([@nil N] ++ repeat [] k). now rewrite join_blank_end by discriminate.
Qed.
Lemma lines_end ls : Forall line_edge ls -> without_end (join NL ls) (trim_end (join NL ls)).
Proof.
  intros F. destruct (trim_lines ls F) as (ls' & k & E & T & L). rewrite T. destruct L as [->|L].
  - cbn [app] in E. subst ls. split; [|intros r X; destruct r; discriminate]. destruct (join_blank k) as [j ->]. now exists j.
  - assert (N' : ls' <> []) by (intros ->; now apply L). split; [exists k; rewrite E; now apply join_blank_end|].
    intros r X. pose proof (join_last ls' N' L) as J. rewrite X, last_last in J.
    assert (I : In (last ls' []) ls) by (rewrite E; apply in_or_app; left; destruct (exists_last N') as (a & b & ->); rewrite last_last; apply in_or_app; right; now left).
    rewrite Forall_forall in F. destruct (F _ I) as [Z|[_ Z]]; [congruence|]. rewrite <- J in Z. discriminate Z.
Qed.
Lemma view_file_says v : Forall (fun kv => Forall view_bits (snd kv)) (vw_layouts v) -> Forall (fun kv => view_bits (snd kv)) (vw_fabs v) ->
  view_file_writes v (view_reconstruct v).
Proof.
  intros H1 H2. exists (map sec_lines (vw_layouts v)), (map fab_lines (vw_fabs v)). split; [|split].
  - induction H1 as [|kv l Hv H1 IH]; cbn [map]; constructor; [|exact IH]. exists (map view_line_reconstruct (snd kv)). split; [|reflexivity].
    apply Forall2_means. intros x X. apply view_says. rewrite Forall_forall in Hv. auto.
  - clear H1. induction H2 as [|kv l Hv H2 IH]; cbn [map]; constructor; [|exact IH]. exists (view_line_reconstruct (snd kv)). split; [now apply view_says|reflexivity].
  - set (ls := concat (map sec_lines (vw_layouts v)) ++ [[]] ++ concat (map fab_lines (vw_fabs v))). unfold NEWLINE. rewrite separated_join.
    assert (E : view_reconstruct v = trim_end (join NL ls)).
    { assert (X : ls <> []) by (unfold ls; intros X; apply app_eq_nil in X as [_ X]; discriminate).
      rewrite <- (trim_end_snoc_ws (join NL ls) NL eq_refl), <- join_app_nl by exact X. unfold ls. rewrite <- app_assoc. unfold view_reconstruct. f_equal.
      rewrite <- join_concat_nl; [|discriminate|apply Forall_map, Forall_forall; discriminate]. rewrite map_map. f_equal.
      - f_equal. apply map_ext_in. intros kv K. rewrite Forall_forall in H1. specialize (H1 kv K). unfold sec_lines, xml_header. rewrite <- join_nil_sep by apply lines_of_ne.
        assert (J : layout_reconstruct (snd kv) = join NL (ViewFileProofs.layout_lines (snd kv))).
        { unfold layout_reconstruct, ViewFileProofs.layout_lines. rewrite join_lines_of. apply trim_fold_post. eapply Forall_impl; [|exact H1]. apply bits_clean. }
        rewrite J, <- !app_assoc. reflexivity.
      - cbn [app]. rewrite <- (join_nil_sep []) by (intros Y; apply app_eq_nil in Y as [_ Y]; discriminate). cbn [app]. f_equal.
        rewrite <- join_concat_nl; [|discriminate|apply Forall_map, Forall_forall; discriminate]. rewrite map_map. cbn [join]. rewrite app_nil_r. f_equal.
        apply map_ext. intros kv. unfold fab_lines, fab_header. cbn [join]. rewrite <- !app_assoc. reflexivity. }
    rewrite E. apply lines_end. unfold ls. rewrite !Forall_app. split; [|split; [repeat constructor|]].
    + apply Forall_concat, Forall_map. eapply Forall_impl; [|exact H1]. intros [n lay] Hv. cbn [fst snd] in Hv. constructor; [apply header_edge; (discriminate || reflexivity)|].
      cbn [snd]. unfold ViewFileProofs.layout_lines. destruct lay as [|x l]; [repeat constructor|]. change (lines_of (map view_line_reconstruct (x :: l))) with (map view_line_reconstruct (x :: l)).
      apply Forall_map. eapply Forall_impl; [|exact Hv]. intros y Y. apply clean_line_edge. now apply bits_clean.
    + apply Forall_concat, Forall_map. eapply Forall_impl; [|exact H2]. intros kv Hv. constructor; [apply header_edge; (discriminate || reflexivity)|].
      constructor; [|constructor]. apply clean_line_edge. now apply bits_clean.
Qed.

Lemma Forall2_unique {A B} (R : A -> B -> Prop) l ts us : (forall a t u, In a l -> R a t -> R a u -> t = u) -> Forall2 R l ts -> Forall2 R l us -> ts = us.
Proof.
  intros H F. revert us. induction F as [|a t l ts X F IH]; intros us G; inversion G as [|? u ? us' Y G']; subst; [reflexivity|]. f_equal.
  - apply (H a); auto. now left.
  - apply IH; auto. intros b x y J. apply H. now right.
Qed.
Lemma end_unique t u v : without_end t u -> without_end t v -> u = v.
Proof.
  intros [[k E] N1] [[k' E'] N2]. rewrite E in E'. clear t E. revert k' E'. induction k as [|k IH]; intros k' E'.
  - cbn [repeat] in E'. rewrite app_nil_r in E'. destruct k' as [|k']; [cbn [repeat] in E'; now rewrite app_nil_r in E'|].
    rewrite repeat_snoc, app_assoc in E'. exfalso. now apply (N1 (v ++ repeat 10%N k')).
  - rewrite repeat_snoc, app_assoc in E'. destruct k' as [|k'].
    + cbn [repeat] in E'. rewrite app_nil_r in E'. exfalso. now apply (N2 (u ++ repeat 10%N k)).
    + rewrite repeat_snoc, app_assoc in E'. apply app_inj_tail in E' as [E' _]. eauto.
Qed.
Lemma ends_unique t u v : without_ends t u -> without_ends t v -> u = v.
Proof.
  intros [[j E] N1] [[j' E'] N2]. pose proof (end_unique _ _ _ E E') as X. clear t E E'. revert j' X. induction j as [|j IH]; intros [|j'] X; cbn [repeat app] in X.
  - exact X.
  - now elim (N1 (repeat 10%N j' ++ v)).
  - now elim (N2 (repeat 10%N j ++ u)).
  - injection X as X. eauto.
Qed.
Lemma view_file_means v t : Forall (fun kv => Forall view_bits (snd kv)) (vw_layouts v) -> Forall (fun kv => view_bits (snd kv)) (vw_fabs v) ->
  view_file_writes v t <-> t = view_reconstruct v.
Proof.
  intros H1 H2. split; [|intros ->; now apply view_file_says]. intros (ls & fs & L & F & T). destruct (view_file_says v H1 H2) as (ls' & fs' & L' & F' & T').
  rewrite Forall_forall in H1, H2. assert (ls = ls') as <-.
  { revert L L'. apply Forall2_unique. intros kv x y K (ts & X & ->) (us & Y & ->). assert (ts = us) as <-; [|reflexivity]. revert X Y. apply Forall2_unique. intros a t' u A Ta Ua.
    specialize (H1 kv K). rewrite Forall_forall in H1. apply (view_means a (H1 a A)) in Ta, Ua. congruence. }
  assert (fs = fs') as <-.
  { revert F F'. apply Forall2_unique. intros kv x y K (ts & X & ->) (us & Y & ->). apply (view_means _ (H2 kv K)) in X, Y. congruence. }
  exact (end_unique _ _ _ T T').
Qed.

(** ** Logic files *)
Lemma blank_ends ts : Forall edge_ok ts -> exists j m k, separated BLANK_LINE ts = repeat NL j ++ m ++ repeat NL k /\ edge_ok m /\ (m = [] -> j = 0%nat).
Proof.
  induction 1 as [|t ts E F (j & m & k & IH & M & Z)]; [exists 0%nat, [], 0%nat; repeat split|]. destruct ts as [|t' ts'].
  - exists 0%nat, t, 0%nat. cbn [separated repeat app]. rewrite app_nil_r. auto.
  - change (separated BLANK_LINE (t :: t' :: ts')) with (t ++ BLANK_LINE ++ separated BLANK_LINE (t' :: ts')). rewrite IH. destruct t as [|c t].
    + destruct m as [|d m].
      * exists 0%nat, [], (S (S (j + k))). split; [|split; [exact I|reflexivity]]. cbn [app repeat]. rewrite repeat_app. reflexivity.
      * exists (S (S j)), (d :: m), k. split; [reflexivity|]. split; [exact M|discriminate].
    + destruct m as [|d m].
      * exists 0%nat, (c :: t), (S (S (j + k))). split; [|split; [exact E|discriminate]]. cbn [app repeat]. rewrite repeat_app. reflexivity.
      * exists 0%nat, ((c :: t) ++ BLANK_LINE ++ repeat NL j ++ d :: m), k. split; [cbn [repeat app]; now rewrite <- !app_assoc|]. split; [|discriminate].
        split; [apply E|]. change (c :: t ++ BLANK_LINE ++ repeat NL j ++ d :: m) with ((c :: t) ++ BLANK_LINE ++ repeat NL j ++ d :: m).
        rewrite !app_assoc. rewrite last_app_ne by discriminate. apply M.
Qed.
Lemma ws_repeat k : forallb is_ws (repeat NL k) = true. Proof. induction k; auto. Qed.
Lemma edge_nl m : edge_ok m -> (forall r, m <> 10%N :: r) /\ forall r, m <> r ++ [10%N].
Proof.
  intros E. split; intros r ->.
  - destruct E as [E _]. discriminate E.
  - destruct r as [|c r]; [destruct E as [E _]; discriminate E|]. destruct E as [_ E]. change ((c :: r) ++ [10%N]) with (c :: (r ++ [10%N])) in E. 
    change (c :: (r ++ [10%N])) with ((c :: r) ++ [10%N]) in E. rewrite last_last in E. discriminate E.
Qed.
Lemma trim_sections ts : Forall edge_ok ts -> without_ends (separated BLANK_LINE ts) (trim (concat (map (fun t => [NL; NL] ++ t) ts))).
Proof.
  intros F. destruct (blank_ends ts F) as (j & m & k & E & M & Z).
  assert (T : trim (concat (map (fun t => [NL; NL] ++ t) ts)) = m).
  { assert (X : ts = [] \/ concat (map (fun t => [NL; NL] ++ t) ts) = [NL; NL] ++ separated BLANK_LINE ts).
    { clear. induction ts as [|t ts IH]; [now left|right]. cbn [map concat]. destruct IH as [->|IH]; [cbn; now rewrite app_nil_r|]. rewrite IH.
      destruct ts; [|reflexivity]. cbn in IH. discriminate. }
    destruct X as [->|X].
    - cbn [separated] in E. symmetry in E. apply app_eq_nil in E as [_ E]. apply app_eq_nil in E as [-> _]. reflexivity.
    - rewrite X, trim_ws_app_l by reflexivity. rewrite E, trim_ws_app_l by apply ws_repeat. rewrite trim_ws_app_r by apply ws_repeat. now apply trim_id. }
  rewrite T. destruct (edge_nl m M) as [N1 N2]. split; [|exact N1]. exists j. split; [exists k; now rewrite E, <- app_assoc|]. intros r X. destruct m as [|c m].
  - rewrite (Z eq_refl) in X. destruct r; discriminate X.
  - destruct (@exists_last _ (c :: m)) as (a & b & Eb); [discriminate|]. rewrite Eb, app_assoc in X. apply app_inj_tail in X as [_ ->]. now apply (N2 a).
Qed.
Lemma pool_says {A} (kind : string) (get : screen_logic -> option A) (R : A -> list str -> Prop) (sec : screen_logic -> list str) ss :
  (forall s, In s ss -> match get s with Some a => exists u body, sec s = [u] /\ R a body /\ trim u = section_text (sl_name s) (lit kind) body | None => sec s = [] end) ->
  pool_texts kind get R ss (map trim (flat_map sec ss)).
Proof.
  intros H. exists (map (fun s => map trim (sec s)) ss). split.
  - induction ss as [|s ss IH]; cbn [map]; constructor.
    + specialize (H s (or_introl eq_refl)). destruct (get s) as [a|]; [|now rewrite H]. destruct H as (u & body & -> & B & T). exists body. split; [exact B|]. cbn [map]. now rewrite T.
    + apply IH. intros x X. apply H. now right.
  - clear H. induction ss as [|s ss IH]; [reflexivity|]. cbn [flat_map map concat]. rewrite map_app. now rewrite IH.
Qed.
Lemma variable_says v : variable_line (va_type v) (va_name v) = variable_reconstruct v.
Proof. destruct v as [n []]; reflexivity. Qed.
Lemma list_variable_says v : variable_line (lv_type v) (lv_name v) = list_variable_reconstruct v.
Proof. destruct v as [n []]; reflexivity. Qed.
Lemma section_sl n kind body s : s_header s = lit "@" ++ n ++ lit ".java_" ++ kind -> s_body s = body -> section_text n kind body = join NL (sl s).
Proof. intros H B. unfold section_text, NEWLINE. rewrite separated_join. unfold sl. now rewrite H, B. Qed.
Lemma containers_says x : g_ok (ss_blk x) -> containers_text x (trim (sec_containers x)).
Proof.
  intros G. rewrite (blk_text x G). exists (map (fun s => join NL (sl s)) (ss_blk x)). split.
  - destruct G as [G _]. unfold ss_blk in *. revert G. induction (sl_block_containers x) as [|kv l IH]; cbn [map]; intros G; constructor.
    + exists (map block_reconstruct (snd kv)). split.
      * apply Forall2_means. intros b B. apply block_means; [|reflexivity]. inversion G as [|? ? G1 _]; subst. destruct G1 as (_ & _ & G1).
        rewrite Forall_forall in G1. apply (G1 b B).
      * symmetry. apply section_sl; reflexivity.
    + apply IH. now inversion G.
  - clear G. induction (ss_blk x) as [|s g IH]; [reflexivity|]. destruct g as [|s2 g]; [reflexivity|].
    change (glines (s :: s2 :: g)) with (sl s ++ [] :: sepcat (map sl (s2 :: g))). rewrite join_sep2; [|discriminate|apply sepcat_nonnil; discriminate].
    change (sepcat (map sl (s2 :: g))) with (glines (s2 :: g)). rewrite IH. reflexivity.
Qed.
Lemma trim_edge x : Forall screen_ok x -> forall t, In t (map trim (flat_map sec_variables x ++ flat_map sec_list_variables x ++ flat_map sec_components x ++
  flat_map sec_events x ++ flat_map sec_more_blocks x ++ map sec_containers x)) -> edge_ok t.
Proof.
  intros H t J. set (l := map (fun s => (sl_name s, s)) x). assert (E : map snd l = x) by (unfold l; rewrite map_map; apply map_id).
  rewrite <- E in H. pose proof (sections_groups l H) as M. pose proof (groups_ok _ H) as G. unfold logic_sections in M. cbv zeta in M. rewrite E in M, G.
  clear H E. clearbody l. revert J G. induction M as [|u g us gs Hm M IH]; cbn [map]; intros J G; [destruct J|]. inversion G as [|? ? G1 G2]; subst. destruct J as [<-|J]; [|auto].
  rewrite Hm. destruct g as [|s g]; [exact I|]. apply group_edge; [discriminate|exact G1].
Qed.
Lemma logic_says l : Forall screen_ok (map snd l) -> logic_writes l (logic_reconstruct l).
Proof.
  intros H. unfold logic_writes. cbv zeta. set (ss := map snd l) in *.
  assert (P : forall x s, In x ss -> In s (ss_var x ++ ss_list x ++ ss_comp x ++ ss_ev x ++ ss_mb x) -> s_ok s).
  { intros x s Hx Hs. rewrite Forall_forall in H. destruct (H x Hx) as [F _]. rewrite Forall_forall in F. auto. }
  exists (map trim (flat_map sec_variables ss)), (map trim (flat_map sec_list_variables ss)), (map trim (flat_map sec_components ss)), (map trim (flat_map sec_events ss)),
    (map trim (flat_map sec_more_blocks ss)), (map trim (map sec_containers ss)).
  split; [|split; [|split; [|split; [|split; [|split]]]]].
  - apply pool_says. intros x Hx. unfold sec_variables. destruct (sl_variables x) as [p|] eqn:Ep; [|reflexivity]. eexists _, _. split; [reflexivity|]. split; [reflexivity|].
    assert (O : s_ok (SVar (sl_name x) p)) by (apply (P x); auto; rewrite !in_app_iff; left; unfold ss_var; rewrite Ep; now left).
    etransitivity; [eapply (sl_text (SVar (sl_name x) p)); [|apply variable_pool_text; apply O|exact O|exact I]; unfold s_header; cbn [s_name s_suffix app]; rewrite <- app_assoc; reflexivity|].
    symmetry. apply section_sl; [reflexivity|]. cbn [s_body]. rewrite map_map. apply map_ext. intros kv. symmetry. apply variable_says.
  - apply pool_says. intros x Hx. unfold sec_list_variables. destruct (sl_list_variables x) as [p|] eqn:Ep; [|reflexivity]. eexists _, _. split; [reflexivity|]. split; [reflexivity|].
    assert (O : s_ok (SList (sl_name x) p)) by (apply (P x); auto; rewrite !in_app_iff; right; left; unfold ss_list; rewrite Ep; now left).
    etransitivity; [eapply (sl_text (SList (sl_name x) p)); [|apply list_variable_pool_text; apply O|exact O|exact I]; unfold s_header; cbn [s_name s_suffix app]; rewrite <- app_assoc; reflexivity|].
    symmetry. apply section_sl; [reflexivity|]. cbn [s_body]. rewrite map_map. apply map_ext. intros kv. symmetry. apply list_variable_says.
  - apply pool_says. intros x Hx. unfold sec_components. destruct (sl_components x) as [p|] eqn:Ep; [|reflexivity]. eexists _, _. split; [reflexivity|].
    split; [apply Forall2_means; intros a _; now apply component_means|].
    assert (O : s_ok (SComp (sl_name x) p)) by (apply (P x); auto; rewrite !in_app_iff; right; right; left; unfold ss_comp; rewrite Ep; now left).
    etransitivity; [eapply (sl_text (SComp (sl_name x) p)); [|apply component_pool_text|exact O|exact I]; unfold s_header; cbn [s_name s_suffix app]; rewrite <- app_assoc; reflexivity|].
    symmetry. apply section_sl; reflexivity.
  - apply pool_says. intros x Hx. unfold sec_events. destruct (sl_events x) as [p|] eqn:Ep; [|reflexivity]. eexists _, _. split; [reflexivity|].
    split; [apply Forall2_means; intros a _; now apply event_means|].
    assert (O : s_ok (SEv (sl_name x) p)) by (apply (P x); auto; rewrite !in_app_iff; right; right; right; left; unfold ss_ev; rewrite Ep; now left).
    etransitivity; [eapply (sl_text (SEv (sl_name x) p)); [|apply event_pool_text|exact O|exact I]; unfold s_header; cbn [s_name s_suffix app]; rewrite <- app_assoc; reflexivity|].
    symmetry. apply section_sl; reflexivity.
  - apply pool_says. intros x Hx. unfold sec_more_blocks. destruct (sl_more_blocks x) as [p|] eqn:Ep; [|reflexivity]. eexists _, _. split; [reflexivity|]. split; [reflexivity|].
    assert (O : s_ok (SMb (sl_name x) p)) by (apply (P x); auto; rewrite !in_app_iff; right; right; right; right; unfold ss_mb; rewrite Ep; now left).
    etransitivity; [eapply (sl_text (SMb (sl_name x) p)); [|apply more_block_pool_text; apply O|exact O|exact I]; unfold s_header; cbn [s_name s_suffix app]; rewrite <- app_assoc; reflexivity|].
    symmetry. apply section_sl; [reflexivity|]. cbn [s_body]. rewrite map_map. reflexivity.
  - rewrite map_map. apply Forall2_means. intros x Hx. apply containers_says. rewrite Forall_forall in H. apply (H x Hx).
  - pose proof (trim_sections (map trim (logic_sections l))) as T. rewrite map_map in T. unfold logic_sections in T at 2. cbv zeta in T. fold ss in T. rewrite !map_app in T.
    unfold logic_reconstruct. change [NL; NL] with ([NL] ++ [NL]). rewrite (fold_app (fun i => ([NL] ++ [NL]) ++ trim i)). apply T.
    apply Forall_forall. unfold logic_sections. cbv zeta. apply trim_edge. exact H.
Qed.

(** ** The text of a logic file is the only one *)
Lemma pool_unique {A} kind (get : screen_logic -> option A) (R : A -> list str -> Prop) ss ts us : (forall a b c, R a b -> R a c -> b = c) -> pool_texts kind get R ss ts -> pool_texts kind get R ss us -> ts = us.
Proof.
  intros H (x & F & ->) (y & G & ->). f_equal. revert F G. apply Forall2_unique. intros s t u _. destruct (get s) as [a|]; [|congruence].
  intros (b & B & ->) (c & C & ->). now rewrite (H _ _ _ B C).
Qed.
Lemma logic_means l t : Forall screen_ok (map snd l) -> (logic_writes l t <-> t = logic_reconstruct l).
Proof.
  intros H. split; [|intros ->; now apply logic_says]. pose proof (logic_says l H) as (v' & li' & co' & ev' & mo' & bl' & V' & L' & C' & E' & M' & B' & T').
  intros (v & li & co & ev & mo & bl & V & L & C & E & M & B & T).
  assert (v = v') as -> by (eapply pool_unique; [|exact V|exact V']; intros ? ? ? -> ->; reflexivity).
  assert (li = li') as -> by (eapply pool_unique; [|exact L|exact L']; cbn beta; congruence).
  assert (co = co') as -> by (eapply pool_unique; [|exact C|exact C']; intros a b c; apply Forall2_unique; intros k x y _ X Y; apply component_means in X, Y; congruence).
  assert (ev = ev') as -> by (eapply pool_unique; [|exact E|exact E']; intros a b c; apply Forall2_unique; intros k x y _ X Y; apply event_means in X, Y; congruence).
  assert (mo = mo') as -> by (eapply pool_unique; [|exact M|exact M']; cbn beta; congruence).
  assert (bl = bl') as ->.
  { revert B B'. apply Forall2_unique. intros s a b I (x & X & ->) (y & Y & ->). f_equal. revert X Y. apply Forall2_unique. intros kv c d K (e & Xe & ->) (f & Xf & ->). f_equal.
    revert Xe Xf. apply Forall2_unique. intros bk u w J U W. rewrite Forall_forall in H. destruct (H s I) as [_ [G _]]. unfold ss_blk in G. rewrite Forall_map, Forall_forall in G.
    destruct (G kv K) as (_ & _ & G1). rewrite Forall_forall in G1. assert (Q : (cval (bl_color bk) < 2 ^ 32)%N) by apply (G1 bk J). apply (block_means _ Q) in U, W. congruence. }
  exact (ends_unique _ _ _ T T').
Qed.
