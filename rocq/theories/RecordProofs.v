(** The decoders of the record models read exactly what [SpecRecord.v] says. *)
From Coq Require Import Lia.
From Verif Require Import Base Spec Str Dec Flt Json JsonProofs Recs M_Color ColorProofs M_File M_Library M_Resource M_Logic M_View M_Date M_Project SpecReading SpecJson SpecNumber NumberProofs NumberTextProofs SpecRecord.
Local Open Scope Z_scope.

(** ** Structs *)
Lemma okey_spec n k : okey_eqb n k = true <-> k = Some n.
Proof. destruct k as [k|]; cbn; [rewrite str_eqb_eq|]; split; congruence. Qed.
Lemma filter_none (kvs : list (option str * json)) n : filter (fun kv => okey_eqb n (fst kv)) kvs = [] <-> ~ In (Some n) (map fst kvs).
Proof.
  induction kvs as [|[k v] kvs IH]; [cbn; tauto|]. cbn [filter map fst In]. destruct (okey_eqb n k) eqn:E.
  - apply okey_spec in E as ->. split; [discriminate|tauto].
  - rewrite IH. assert (k <> Some n) by (intros ->; rewrite (proj2 (okey_spec n (Some n)) eq_refl) in E; discriminate). tauto.
Qed.
Lemma field_of_spec kvs n o : field_of kvs n = Some o <->
  match o with Some v => only kvs n v | None => ~ In (Some n) (map fst kvs) end.
Proof.
  unfold field_of. destruct o as [v|].
  - split.
    + destruct (filter _ kvs) as [|kv [|]] eqn:F; try discriminate. intros [= <-].
      revert F. induction kvs as [|[k v] kvs IH]; [discriminate|]. cbn [filter fst]. destruct (okey_eqb n k) eqn:E.
      * intros [= <- F]. apply okey_spec in E as ->. exists [], kvs. split; [reflexivity|]. cbn [app]. now apply filter_none.
      * intros F. destruct (IH F) as (pre & post & -> & NI). exists ((k, v) :: pre), post. split; [reflexivity|]. cbn [app map fst In].
        intros [->|H]; [|tauto]. rewrite (proj2 (okey_spec n (Some n)) eq_refl) in E. discriminate.
    + intros (pre & post & -> & NI). rewrite map_app, in_app_iff in NI. rewrite filter_app. cbn [filter fst].
      rewrite (proj2 (okey_spec n (Some n)) eq_refl).
      rewrite (proj2 (filter_none pre n)), (proj2 (filter_none post n)) by tauto. reflexivity.
  - rewrite <- filter_none. destruct (filter _ kvs) as [|kv [|]]; split; congruence.
Qed.
Lemma omapM_spec {A B} (f : A -> option B) l m : omapM f l = Some m <-> Forall2 (fun a b => f a = Some b) l m.
Proof.
  revert m. induction l as [|a l IH]; intros m; cbn [omapM].
  - split; [intros [= <-]; constructor|inversion 1; reflexivity].
  - split.
    + intros H. inv_obind H. inv_obind H. injection H as <-. constructor; [assumption|now apply IH].
    + inversion 1 as [|? b ? m' Hb Hm]; subst. rewrite Hb. cbn [obind]. apply IH in Hm. now rewrite Hm.
Qed.
Lemma Forall2_map_l {A B C} (R : B -> C -> Prop) (f : A -> B) l m : Forall2 R (map f l) m <-> Forall2 (fun a c => R (f a) c) l m.
Proof.
  revert m. induction l as [|a l IH]; intros m; cbn [map]; split; inversion 1; subst; constructor; try assumption; now apply IH.
Qed.
Lemma Forall2_imp {A B} (R S : A -> B -> Prop) l m : (forall a b, R a b -> S a b) -> Forall2 R l m -> Forall2 S l m.
Proof. intros H. induction 1; constructor; auto. Qed.
Lemma sf_spec names j vs : sf names j = Some vs <-> fields_of names j vs.
Proof.
  unfold sf, struct_fields. split.
  - destruct j as [| | | |l|kvs]; try discriminate.
    + rewrite map_length. destruct (Nat.leb_spec (length l) (length names)) as [L|]; [|discriminate]. intros [= <-].
      apply fields_by_position. lia.
    + destruct (forallb key_valid kvs) eqn:K; [|discriminate]. intros H. apply omapM_spec in H. rewrite Forall2_map_l in H. constructor.
      * rewrite forallb_forall in K. apply Forall_forall. intros kv Hkv. specialize (K kv Hkv). unfold key_valid in K. destruct (fst kv); discriminate.
      * revert H. apply Forall2_imp. intros n o. apply field_of_spec.
  - intros H. destruct H as [kvs vs K H|l k L].
    + assert (K' : forallb key_valid kvs = true).
      { apply forallb_forall. intros kv Hkv. rewrite Forall_forall in K. specialize (K kv Hkv). unfold key_valid. now destruct (fst kv). }
      rewrite K'. apply omapM_spec, Forall2_map_l. revert H. apply Forall2_imp. intros n o. apply field_of_spec.
    + rewrite map_length. destruct (Nat.leb_spec (length l) (length names)); [|lia]. do 3 f_equal. lia.
Qed.

(** ** Values *)
Class Reads {A} (d : json -> option A) (R : json -> A -> Prop) := reads : forall v a, d v = Some a <-> R v a.
Lemma req_given {A} (d : json -> option A) R {r : Reads d R} o a : req d o = Some a <-> given R a o.
Proof.
  unfold req, given. split.
  - destruct o as [v|]; [|discriminate]. intros H. exists v. split; [reflexivity|now apply reads].
  - intros (v & -> & H). now apply reads.
Qed.
Lemma dflt_optional {A} (d : json -> option A) R {r : Reads d R} o a : dflt (d_option d) None o = Some a <-> optional R a o.
Proof.
  unfold dflt, optional, d_option. split.
  - destruct o as [v|]; [|intros [= <-]; auto].
    destruct v; try (intros [= <-]; now auto);
      (destruct (d _) as [y|] eqn:D; [|discriminate]; intros [= <-]; right; eexists _, y; split; [reflexivity|]; split; [discriminate|]; split; [reflexivity|];
       now apply reads).
  - intros [[[->| ->] ->]|(v & b & -> & N & -> & H)]; [reflexivity|reflexivity|]. apply reads in H.
    destruct v; try congruence; now rewrite H.
Qed.
#[export] Instance text_reads_str : Reads d_str text.
Proof. intros v a. unfold d_str, text. destruct v as [| | |[s|]| |]; split; congruence. Qed.
#[export] Instance list_reads {A} (d : json -> option A) R {r : Reads d R} : Reads (d_list d) (list_of R).
Proof.
  intros v a. unfold d_list, list_of. split.
  - destruct v as [| | | |l|]; try discriminate. intros H. exists l. split; [reflexivity|]. apply omapM_spec in H. revert H. apply Forall2_imp. intros x y. apply reads.
  - intros (l & -> & H). apply omapM_spec. revert H. apply Forall2_imp. intros x y. apply reads.
Qed.

(** integers *)
Definition wnum neg ds : jnum := {| jneg := neg; jint := ds; jfrac := None; jexp := None |}.
Lemma classify_NU64 n v : classify n = NU64 v <-> exists ds, n = wnum false ds /\ decimal ds = Z.of_N v /\ decimal ds < 2 ^ 64.
Proof.
  destruct n as [neg ds fr ex]. unfold classify. cbn [jint jfrac jexp jneg].
  pose proof (decimal_nonneg ds) as P. split.
  - destruct (acc_int0 ds) as [[E L]|[E L]].
    + rewrite E. destruct fr as [f|], ex as [[eneg es]|]; cbn [Z.eqb].
      * destruct (acc_frac _ _ _). destruct (_ <? _)%N; [destruct (_ && _); discriminate|]. destruct (f64_from_parts _ _ _); discriminate.
      * destruct (acc_frac _ _ _). destruct (f64_from_parts _ _ _); discriminate.
      * destruct (acc_frac _ _ _). destruct (_ <? _)%N; [destruct (_ && _); discriminate|]. destruct (f64_from_parts _ _ _); discriminate.
      * change (0 =? 0) with true. cbv iota. destruct neg; [destruct (_ || _); discriminate|]. intros [= <-]. exists ds. split; [reflexivity|]. lia.
    + destruct (acc_int 0 ds) as [sig ex0]. cbn [snd] in E. destruct (Z.eqb_spec ex0 0); [lia|].
      destruct fr as [f|], ex as [[eneg es]|]; destruct (acc_frac _ _ _); try (destruct (_ <? _)%N; [destruct (_ && _); discriminate|]);
        destruct (f64_from_parts _ _ _); discriminate.
  - intros (ds' & EQ & D & L). injection EQ as -> -> -> ->. destruct (acc_int0 ds') as [[E _]|[_ E]]; [|lia].
    rewrite E. change (0 =? 0) with true. cbv iota. rewrite D. now rewrite N2Z.id.
Qed.
Lemma classify_NI64 n z : classify n = NI64 z <-> exists ds, n = wnum true ds /\ z = - decimal ds /\ - 2 ^ 63 <= z < 0.
Proof.
  destruct n as [neg ds fr ex]. unfold classify. cbn [jint jfrac jexp jneg].
  pose proof (decimal_nonneg ds) as P. split.
  - destruct (acc_int0 ds) as [[E L]|[E L]].
    + rewrite E. destruct fr as [f|], ex as [[eneg es]|]; cbn [Z.eqb].
      * destruct (acc_frac _ _ _). destruct (_ <? _)%N; [destruct (_ && _); discriminate|]. destruct (f64_from_parts _ _ _); discriminate.
      * destruct (acc_frac _ _ _). destruct (f64_from_parts _ _ _); discriminate.
      * destruct (acc_frac _ _ _). destruct (_ <? _)%N; [destruct (_ && _); discriminate|]. destruct (f64_from_parts _ _ _); discriminate.
      * change (0 =? 0) with true. cbv iota. destruct neg; [|discriminate].
        destruct (N.eqb_spec (Z.to_N (decimal ds)) 0); [discriminate|]. destruct (N.ltb_spec 9223372036854775808 (Z.to_N (decimal ds))); [discriminate|].
        cbn [orb]. intros [= <-]. exists ds. split; [reflexivity|]. lia.
    + destruct (acc_int 0 ds) as [sig ex0]. cbn [snd] in E. destruct (Z.eqb_spec ex0 0); [lia|].
      destruct fr as [f|], ex as [[eneg es]|]; destruct (acc_frac _ _ _); try (destruct (_ <? _)%N; [destruct (_ && _); discriminate|]);
        destruct (f64_from_parts _ _ _); discriminate.
  - intros (ds' & EQ & D & L). injection EQ as -> -> -> ->. destruct (acc_int0 ds') as [[E _]|[_ E]]; [|lia].
    rewrite E. change (0 =? 0) with true. cbv iota.
    destruct (N.eqb_spec (Z.to_N (decimal ds')) 0); [lia|]. destruct (N.ltb_spec 9223372036854775808 (Z.to_N (decimal ds'))); [lia|]. cbn [orb].
    f_equal. lia.
Qed.
Lemma whole_pos j z : 0 <= z < 2 ^ 64 -> whole j z <-> exists n, j = JNum n /\ classify n = NU64 (Z.to_N z).
Proof.
  intros R. split.
  - intros (neg & ds & -> & E & N0). exists (wnum neg ds). split; [reflexivity|]. pose proof (decimal_nonneg ds).
    destruct neg; [exfalso; apply N0; split; [reflexivity|lia]|]. apply classify_NU64. exists ds. split; [reflexivity|]. lia.
  - intros (n & -> & C). apply classify_NU64 in C as (ds & -> & D & L). exists false, ds. split; [reflexivity|]. split; [lia|]. intros [[=] _].
Qed.
Lemma whole_neg j z : - 2 ^ 63 <= z < 0 -> whole j z <-> exists n, j = JNum n /\ classify n = NI64 z.
Proof.
  intros R. split.
  - intros (neg & ds & -> & E & N0). exists (wnum neg ds). split; [reflexivity|]. pose proof (decimal_nonneg ds).
    destruct neg; [|lia]. apply classify_NI64. exists ds. split; [reflexivity|]. lia.
  - intros (n & -> & C). apply classify_NI64 in C as (ds & -> & D & L). exists true, ds. split; [reflexivity|]. split; [assumption|]. lia.
Qed.
Lemma d_int_spec lo hi : - 2 ^ 63 <= lo -> lo <= 0 -> 0 <= hi < 2 ^ 64 -> Reads (d_int lo hi) (integer lo hi).
Proof.
  intros H1 H2 H3 v z. unfold integer, d_int. split.
  - destruct v as [| |n| | |]; try discriminate. destruct (classify n) as [u|w| |] eqn:C; try discriminate.
    + destruct (Z.leb_spec (Z.of_N u) hi); [|discriminate]. intros [= <-]. split; [|lia]. apply whole_pos; [lia|].
      exists n. split; [reflexivity|]. now rewrite N2Z.id.
    + destruct (Z.leb_spec lo w), (Z.leb_spec w hi); try discriminate. intros [= <-]. split; [|lia].
      assert (W : exists ds, n = wnum true ds /\ w = - decimal ds /\ - 2 ^ 63 <= w < 0) by now apply classify_NI64.
      destruct W as (ds & _ & _ & R). apply whole_neg; [lia|]. exists n. auto.
  - intros [W R]. destruct (Z_lt_le_dec z 0).
    + apply whole_neg in W as (n & -> & ->); [|lia]. destruct (Z.leb_spec lo z), (Z.leb_spec z hi); try lia. reflexivity.
    + apply whole_pos in W as (n & -> & ->); [|lia]. rewrite Z2N.id by lia. destruct (Z.leb_spec z hi); [reflexivity|lia].
Qed.
#[export] Instance reads_i8 : Reads d_i8 (integer (-128) 127). Proof. apply d_int_spec; lia. Qed.
#[export] Instance reads_i16 : Reads d_i16 (integer (-32768) 32767). Proof. apply d_int_spec; lia. Qed.
#[export] Instance reads_i32 : Reads d_i32 i32. Proof. apply d_int_spec; lia. Qed.
#[export] Instance reads_u8z : Reads d_u8z (integer 0 255). Proof. apply d_int_spec; lia. Qed.
#[export] Instance reads_u16z : Reads d_u16z (integer 0 65535). Proof. apply d_int_spec; lia. Qed.
Lemma nat_spec hi : 0 <= hi < 2 ^ 64 -> Reads (fun j => option_map Z.to_N (d_int 0 hi j)) (natural hi).
Proof.
  intros H v n. unfold natural. pose proof (d_int_spec 0 hi ltac:(lia) ltac:(lia) H) as R. rewrite <- (R v (Z.of_N n)).
  destruct (d_int 0 hi v) as [z|] eqn:D; cbn [option_map]; [|split; discriminate]. apply R in D as [_ D]. split; intros [= E]; f_equal; lia.
Qed.
#[export] Instance reads_u8 : Reads d_u8 (natural 255). Proof. apply nat_spec. lia. Qed.
#[export] Instance reads_u32 : Reads d_u32 u32. Proof. apply (nat_spec (2 ^ 32 - 1)). lia. Qed.
#[export] Instance reads_gravity : Reads d_gravity (natural 255). Proof. exact reads_u8. Qed.

(** enums *)
Lemma reads_code {A B} (d : json -> option B) (up : B -> Z) lo hi (f : B -> option A) (t : list (Z * A)) :
  (forall v b, d v = Some b <-> integer lo hi v (up b)) ->
  (forall b a, lo <= up b <= hi -> f b = Some a <-> In (up b, a) t) -> (forall z a, In (z, a) t -> lo <= z <= hi /\ exists b, up b = z) ->
  Reads (fun j => let? n := d j in f n) (coded t).
Proof.
  intros Hd Hf Ht v a. unfold coded. split.
  - destruct (d v) as [b|] eqn:D; [|discriminate]. cbn [obind]. intros F. apply Hd in D as [W R]. exists (up b). split; [assumption|].
    now apply Hf.
  - intros (z & W & I). destruct (Ht z a I) as (R & b & <-). assert (D : d v = Some b) by (apply Hd; split; assumption).
    rewrite D. cbn [obind]. now apply Hf.
Qed.
Ltac table := let b := fresh "b" in let a := fresh "a" in let I := fresh "I" in let Hz := fresh "Hz" in
  intros b a _; split;
  [ repeat match goal with |- context [if ?x then _ else _] => destruct x eqn:?E end; intros [= <-];
    repeat match goal with E : (_ =? _)%N = true |- _ => apply N.eqb_eq in E; subst | E : _ = true |- _ => apply Z.eqb_eq in E; subst end; cbn; tauto
  | cbn; intros I;
    repeat match type of I with _ \/ _ => destruct I as [I|I] end; try contradiction; injection I as Hz <- ;
    first [ replace b with (Z.to_N (Z.of_N b)) by apply N2Z.id; rewrite <- Hz; reflexivity | rewrite <- Hz; reflexivity ] ].
Ltac tableN := let z := fresh "z" in let a := fresh "a" in let I := fresh "I" in intros z a I; cbn in I; repeat match type of I with _ \/ _ => destruct I as [I|I] end; try contradiction; injection I as <- <-;
  (split; [lia|]); first [exists 0%N; reflexivity|exists 1%N; reflexivity|exists 2%N; reflexivity|exists 3%N; reflexivity].
Ltac tableZ := let z := fresh "z" in let a := fresh "a" in let I := fresh "I" in intros z a I; cbn in I; repeat match type of I with _ \/ _ => destruct I as [I|I] end; try contradiction; injection I as <- <-;
  (split; [lia|]); eexists; reflexivity.
#[export] Instance reads_file_type : Reads (fun j => let? n := d_u8 j in file_type_of n) (coded [(0, FtActivity); (1, FtCustomView); (2, FtDrawer)]).
Proof. apply (reads_code d_u8 Z.of_N 0 255); [exact reads_u8|unfold file_type_of; table|tableN]. Qed.
#[export] Instance reads_keyboard : Reads (fun j => let? n := d_u8 j in keyboard_of n) (coded [(0, KbUnspecified); (1, KbVisible); (2, KbHidden)]).
Proof. apply (reads_code d_u8 Z.of_N 0 255); [exact reads_u8|unfold keyboard_of; table|tableN]. Qed.
#[export] Instance reads_orientation : Reads (fun j => let? n := d_u8 j in orientation_of n) (coded [(0, OrPortrait); (1, OrLandscape); (2, OrBoth)]).
Proof. apply (reads_code d_u8 Z.of_N 0 255); [exact reads_u8|unfold orientation_of; table|tableN]. Qed.
#[export] Instance reads_theme : Reads (fun j => let? n := d_i8 j in theme_of n) (coded [(-1, ThNone); (0, ThDefault); (1, ThActionbar); (2, ThFullscreen)]).
Proof. apply (reads_code d_i8 id (-128) 127); [exact reads_i8|unfold theme_of, id; table|tableZ]. Qed.
#[export] Instance reads_options : Reads (fun j => let? n := d_u8 j in Some (options_from_num n)) options_num.
Proof.
  intros v o. unfold options_num.
  assert (B : forall n, options_from_num n = {| ao_toolbar := Z.testbit (Z.of_N n) 0; ao_fullscreen := Z.testbit (Z.of_N n) 1;
                          ao_drawer := Z.testbit (Z.of_N n) 2; ao_fab := Z.testbit (Z.of_N n) 3 |}).
  { intros n. assert (K : forall k, N.eqb (N.land n (N.shiftl 1 k)) (N.shiftl 1 k) = Z.testbit (Z.of_N n) (Z.of_N k)).
    { intros k. rewrite Z.testbit_of_N. rewrite N.shiftl_1_l. destruct (N.eqb_spec (N.land n (2 ^ k)) (2 ^ k)) as [E|E].
      - assert (T : N.testbit (N.land n (2 ^ k)) k = true) by (rewrite E; apply N.pow2_bits_true).
        rewrite N.land_spec in T. apply andb_prop in T as [T _]. now rewrite T.
      - destruct (N.testbit n k) eqn:T; [|reflexivity]. exfalso. apply E. apply N.bits_inj. intros i. rewrite N.land_spec.
        rewrite N.pow2_bits_eqb. destruct (N.eqb_spec k i) as [<-|]; [now rewrite T|apply Bool.andb_false_r]. }
    unfold options_from_num, MASK_TOOLBAR, MASK_FULLSCREEN, MASK_DRAWER, MASK_FAB. rewrite !K. reflexivity. }
  split.
  - destruct (d_u8 v) as [n|] eqn:D; [|discriminate]. cbn [obind]. intros [= <-]. exists (Z.of_N n). split; [now apply reads_u8|apply B].
  - intros (z & I & ->). destruct I as [W R]. assert (D : d_u8 v = Some (Z.to_N z)).
    { apply reads_u8. split; rewrite Z2N.id by lia; assumption. }
    rewrite D. cbn [obind]. rewrite B, Z2N.id by lia. reflexivity.
Qed.
#[export] Instance reads_choice : Reads d_choice (coded [(0, CmNone); (1, CmSingle); (2, CmMulti)]).
Proof. apply (reads_code d_u8z id 0 255); [exact reads_u8z|unfold choice_mode_of, id; table|tableZ]. Qed.
#[export] Instance reads_spinner : Reads d_spinner (coded [(0, SmDialog); (1, SmDropdown)]).
Proof. apply (reads_code d_u8z id 0 255); [exact reads_u8z|unfold spinner_mode_of, id; table|tableZ]. Qed.
#[export] Instance reads_orient : Reads d_orient (coded [(1, LoVertical); (0, LoUnspecified); (-1, LoHorizontal)]).
Proof. apply (reads_code d_i8 id (-128) 127); [exact reads_i8|unfold layout_orientation_of, id; table|tableZ]. Qed.
#[export] Instance reads_ime : Reads d_ime (coded [(0, ImeNormal); (1, ImeNone); (2, ImeGo); (3, ImeSearch); (4, ImeSend); (5, ImeNext); (6, ImeDone)]).
Proof. apply (reads_code d_u8z id 0 255); [exact reads_u8z|unfold ime_option_of, id; table|tableZ]. Qed.
#[export] Instance reads_input : Reads d_input (coded [(8194, ItNumberDecimal); (4098, ItNumberSigned); (12290, ItNumberSignedDecimal); (129, ItPassword); (3, ItPhone); (1, ItText)]).
Proof. apply (reads_code d_u16z id 0 65535); [exact reads_u16z|unfold input_type_of, id; table|tableZ]. Qed.
#[export] Instance reads_text_type : Reads d_text_type (coded [(0, TtNormal); (1, TtBold); (2, TtItalic); (3, TtBoldItalic)]).
Proof. apply (reads_code d_u8z id 0 255); [exact reads_u8z|unfold text_type_of, id; table|tableZ]. Qed.
Definition scale_table : list (string * scale_type) := [("CENTER", ScCenter); ("FIT_XY", ScFitXy); ("FIT_START", ScFitStart); ("FIT_CENTER", ScFitCenter);
      ("FIT_END", ScFitEnd); ("CENTER_CROP", ScCenterCrop); ("CENTER_INSIDE", ScCenterInside)]%string.
#[export] Instance reads_scale : Reads d_scale (named scale_table).
Proof.
  intros v a. unfold d_scale, named.
  assert (S : forall s, scale_of s = Some a <-> exists t, In (t, a) scale_table /\ s = lit t).
  { intros s. unfold scale_of. split.
    - cbn [find]. repeat match goal with |- context [str_eqb s ?x] => destruct (str_eqb_spec s x) as [->|] end; try discriminate;
        intros [= <-]; eexists; (split; [|reflexivity]); cbn; tauto.
    - intros (t & I & ->). cbn in I. repeat match type of I with _ \/ _ => destruct I as [I|I] end; try contradiction; injection I as <- <-; reflexivity. }
  split.
  - destruct (d_enum v) as [s|] eqn:D; [|discriminate]. cbn [obind]. intros H. apply S in H as (t & I & ->). exists t. split; [assumption|].
    unfold d_enum in D. destruct v as [| | |[s|]| |[|[[k|] []] [|]]]; try discriminate; injection D as ->; auto.
  - intros (s & I & H). assert (D : d_enum v = Some (lit s)) by (destruct H as [->| ->]; reflexivity). rewrite D. cbn [obind]. apply S. exists s. auto.
Qed.
#[export] Instance reads_flag : Reads d_b01 flag.
Proof.
  intros v b. unfold d_b01, flag. split.
  - destruct (d_u8 v) as [n|] eqn:D; [|discriminate]. cbn [obind]. intros [= <-]. exists (Z.of_N n). split; [now apply reads_u8|].
    f_equal. destruct (N.eqb_spec n 0), (Z.eqb_spec (Z.of_N n) 0); (reflexivity || lia).
  - intros (z & [W R] & ->). assert (D : d_u8 v = Some (Z.to_N z)) by (apply reads_u8; split; rewrite Z2N.id by lia; assumption).
    rewrite D. cbn [obind]. do 2 f_equal. destruct (N.eqb_spec (Z.to_N z) 0), (Z.eqb_spec z 0); (reflexivity || lia).
Qed.
#[export] Instance reads_truth : Reads d_bstr truth.
Proof.
  intros v b. unfold d_bstr, truth. split.
  - destruct (d_str v) as [s|] eqn:D; [|discriminate]. cbn [obind]. apply text_reads_str in D. unfold text in D. subst v.
    destruct (str_eqb_spec s (lit "true")) as [->|]; [now intros [= <-]|]. destruct (str_eqb_spec s (lit "false")) as [->|]; [now intros [= <-]|discriminate].
  - intros ->. now destruct b.
Qed.
#[export] Instance reads_size : Reads d_size size_value.
Proof.
  intros v s. unfold d_size, size_value. split.
  - destruct (d_i32 v) as [z|] eqn:D; [|discriminate]. cbn [obind]. intros [= <-]. exists z. split; [now apply reads_i32|reflexivity].
  - intros (z & I & ->). apply reads_i32 in I. now rewrite I.
Qed.
Lemma u32_cval z : Z.of_N (cval (color_of_u32 (u32_of_i32 z))) = z mod 2 ^ 32.
Proof.
  unfold color_of_u32, u32_of_i32. cbn [cval]. change 0xffffffff%N with (N.ones 32). rewrite N.land_ones.
  pose proof (Z.mod_pos_bound z (2 ^ 32) ltac:(lia)) as B. change 4294967296 with (2 ^ 32).
  rewrite N.mod_small; [lia|]. change (2 ^ 32)%N with (Z.to_N (2 ^ 32)). lia.
Qed.
Lemma cval_inj c d : cval c = cval d -> c = d.
Proof. destruct c, d. cbn. congruence. Qed.
Lemma f64_sat z : - 2 ^ 63 <= z < 2 ^ 63 -> Z.of_N (cval (visit_i64 z)) = (Z.min (Z.max z (- 2 ^ 31)) (2 ^ 31 - 1)) mod 2 ^ 32.
Proof. intros H. unfold visit_i64, visit_f64. rewrite u32_cval. rewrite i32_f64_Z by lia. reflexivity. Qed.
#[export] Instance reads_color : Reads d_color colour.
Proof.
  intros v c. split.
  - unfold d_color. destruct v as [| |n| | |]; try discriminate. destruct (classify n) as [u|z|x|] eqn:C; try discriminate; intros [= <-].
    + assert (U : Z.of_N u < 2 ^ 64) by (apply classify_NU64 in C as (ds & _ & E & L); lia).
      apply colour_whole with (Z.of_N u); [apply whole_pos; [lia|]; exists n; split; [reflexivity|now rewrite N2Z.id]|lia|].
      unfold visit_u64. unfold i64_of_u64. destruct (N.ltb_spec u 9223372036854775808), (Z.ltb_spec (Z.of_N u) (2 ^ 63)); try lia; apply f64_sat; lia.
    + assert (R : - 2 ^ 63 <= z < 0) by (apply classify_NI64 in C as (ds & _ & _ & R); exact R).
      apply colour_whole with z; [apply whole_neg; [lia|]; exists n; auto|lia|]. destruct (Z.ltb_spec z (2 ^ 63)); [|lia]. apply f64_sat. lia.
    + apply colour_float with x (i32_of_flt x); [now apply classify_float|apply to_i32_cast; [now apply classify_finite in C|reflexivity]|]. apply u32_cval.
  - intros H. destruct H as [j z c W R E|n y z c C I E].
    + destruct (Z_lt_le_dec z 0).
      * apply whole_neg in W as (n & -> & C); [|lia]. unfold d_color. rewrite C. f_equal. apply cval_inj.
        apply N2Z.inj. rewrite E, f64_sat by lia. destruct (Z.ltb_spec z (2 ^ 63)); [reflexivity|lia].
      * apply whole_pos in W as (n & -> & C); [|lia]. unfold d_color. rewrite C. f_equal. apply cval_inj.
        apply N2Z.inj. rewrite E. unfold visit_u64, i64_of_u64.
        destruct (N.ltb_spec (Z.to_N z) 9223372036854775808), (Z.ltb_spec z (2 ^ 63)); try lia; rewrite f64_sat by lia; rewrite Z2N.id by lia; reflexivity.
    + apply classify_float in C. apply to_i32_cast in I; [|now apply classify_finite in C]. unfold d_color. rewrite C. f_equal. apply cval_inj. apply N2Z.inj. rewrite E, I. apply u32_cval.
Qed.
#[export] Instance reads_real : Reads d_f32 real.
Proof.
  intros v x. split.
  - unfold d_f32. destruct v as [| |n| | |]; try discriminate. destruct (classify n) as [u|z|y|] eqn:C; try discriminate; intros [= <-].
    + assert (U : Z.of_N u < 2 ^ 64) by (apply classify_NU64 in C as (ds & _ & E & L); lia).
      apply real_nat with (Z.of_N u); [apply whole_pos; [lia|]; exists n; split; [reflexivity|now rewrite N2Z.id]|lia|now apply f32_of_N].
    + assert (R : - 2 ^ 63 <= z < 0) by (apply classify_NI64 in C as (ds & _ & _ & R); exact R).
      apply real_neg with z; [apply whole_neg; [lia|]; exists n; auto|lia|]. apply (nearest_neg F32 false).
      replace (- z)%Z with (Z.of_N (Z.to_N (- z))) at 1 by lia. now apply f32_of_N.
    + apply real_float with y; [now apply classify_float|]. apply to_f32_cast; [now apply classify_finite in C|reflexivity].
  - intros H. destruct H as [j z x W R X|j z x W R X|n y x C X].
    + apply whole_pos in W as (n & -> & C); [|lia]. unfold d_f32. rewrite C. f_equal. symmetry. apply f32_of_N. now rewrite Z2N.id by lia.
    + apply whole_neg in W as (n & -> & C); [|lia]. unfold d_f32. rewrite C. f_equal. apply (nearest_neg F32 true) in X. cbn [negb] in X.
      replace (- z)%Z with (Z.of_N (Z.to_N (- z))) in X by lia. apply f32_of_N in X. rewrite <- X. destruct x; cbn; rewrite ?negb_involutive; reflexivity.
    + apply classify_float in C. apply to_f32_cast in X; [|now apply classify_finite in C]. unfold d_f32. now rewrite C, X.
Qed.

(** ** Records *)
Ltac fields_in H :=
  match type of H with Forall2 _ [] _ => inversion H; subst; clear H
  | Forall2 _ (_ :: _) _ => let Hd := fresh "Hd" in let Tl := fresh "Tl" in
      inversion H as [|? ? ? ? Hd Tl]; subst; clear H; cbn [snd] in Hd; fields_in Tl end.
Ltac record_reads D N :=
  let v := fresh "v" in let x := fresh "x" in let H := fresh "H" in let SF := fresh "SF" in
  let vs := fresh "vs" in let F := fresh "F" in let RS := fresh "RS" in
  intros v x; split;
  [ unfold D; intros H; inv_obind H;
    match goal with E : sf _ _ = Some ?fs |- _ => rename E into SF end;
    repeat match type of H with match ?l with [] => _ | _ :: _ => _ end = _ => destruct l; try discriminate H end;
    repeat (inv_obind H); injection H as <-;
    eexists; split; [apply sf_spec; exact SF|];
    repeat (apply Forall2_cons; [cbn [snd];
       match goal with
       | E : req ?d ?o = Some ?a |- given ?R _ ?o => exact (proj1 (req_given d R o a) E)
       | E : dflt (d_option ?d) None ?o = Some ?a |- optional ?R _ ?o => exact (proj1 (dflt_optional d R o a) E)
       end|]); apply Forall2_nil
  | intros (vs & F & RS); apply sf_spec in F; cbn [map fst] in F; unfold D, N; rewrite F; cbn [obind]; clear F; fields_in RS;
    repeat match goal with
    | Hd : given ?R ?a ?o |- obind (req ?d ?o) _ = _ => rewrite (proj2 (req_given d R o a) Hd); clear Hd; cbn [obind]
    | Hd : optional ?R ?a ?o |- obind (dflt (d_option ?d) None ?o) _ = _ => rewrite (proj2 (dflt_optional d R o a) Hd); clear Hd; cbn [obind]
    end; destruct x; reflexivity ].
#[export] Instance reads_file_item : Reads d_file_item file_item_reads.
Proof. record_reads d_file_item d_file_item. Qed.
#[export] Instance reads_ad_unit : Reads d_ad_unit ad_unit_reads.
Proof. record_reads d_ad_unit d_ad_unit. Qed.
#[export] Instance reads_library_item : Reads d_library_item library_item_reads.
Proof. record_reads d_library_item d_library_item. Qed.
#[export] Instance reads_resource_item : Reads d_resource_item resource_item_reads.
Proof. record_reads d_resource_item d_resource_item. Qed.
#[export] Instance reads_component : Reads d_component component_reads.
Proof. record_reads d_component component_names. Qed.
#[export] Instance reads_event : Reads d_event event_reads.
Proof. record_reads d_event event_names. Qed.
#[export] Instance reads_block : Reads d_block block_reads.
Proof. record_reads d_block block_names. Qed.
#[export] Instance reads_image : Reads d_image image_reads.
Proof. record_reads d_image image_config_names. Qed.
#[export] Instance reads_layout : Reads d_layout layout_reads.
Proof. record_reads d_layout layout_config_names. Qed.
#[export] Instance reads_text : Reads d_text text_reads.
Proof. record_reads d_text text_config_names. Qed.
#[export] Instance reads_view : Reads d_view view_reads.
Proof. record_reads d_view android_view_names. Qed.

(** ** The project file *)
Local Open Scope N_scope.
Lemma nat_text_decimal s n : nat_text 10 s = Some n <-> digits s /\ Z.of_N n = decimal s.
Proof.
  assert (G : forall s acc, digits_val 10 s acc = Some n <->
    Forall (fun c => 48 <= c <= 57) s /\ Z.of_N n = (Z.of_N acc * 10 ^ Z.of_nat (length s) + decimal s)%Z).
  { clear s. induction s as [|c s IH]; intros acc; cbn [digits_val decimal length].
    - change (10 ^ Z.of_nat 0)%Z with 1%Z. split; [intros [= <-]; split; [constructor|lia]|intros [_ H]; f_equal; lia].
    - replace (Z.of_nat (S (length s))) with (Z.of_nat (length s) + 1)%Z by lia. rewrite Z.pow_add_r by lia. change (10 ^ 1)%Z with 10%Z.
      assert (T : to_digit 10 c = if (48 <=? c) && (c <=? 57) then Some (c - 48) else None).
      { unfold to_digit. destruct (N.leb_spec 48 c), (N.leb_spec c 57); cbn [andb].
        - destruct (N.ltb_spec (c - 48) 10); [reflexivity|lia].
        - destruct (N.leb_spec 97 c), (N.leb_spec c 122); cbn [andb].
          { destruct (N.ltb_spec (c - 87) 10); [lia|reflexivity]. }
          all: destruct (N.leb_spec 65 c), (N.leb_spec c 90); cbn [andb]; try reflexivity; destruct (N.ltb_spec (c - 55) 10); (lia || reflexivity).
        - destruct (N.leb_spec 97 c); [lia|]. destruct (N.leb_spec 65 c); [lia|reflexivity].
        - lia. }
      rewrite T. destruct (N.leb_spec 48 c), (N.leb_spec c 57); cbn [andb].
      + rewrite IH. split; intros [F E]; (split; [|]).
        * constructor; [lia|assumption].
        * rewrite E. rewrite N2Z.inj_add, N2Z.inj_mul. ring.
        * now apply Forall_inv_tail in F.
        * rewrite E. rewrite N2Z.inj_add, N2Z.inj_mul. ring.
      + split; [discriminate|]. intros [F _]. apply Forall_inv in F. lia.
      + split; [discriminate|]. intros [F _]. apply Forall_inv in F. lia.
      + lia. }
  unfold nat_text, digits. destruct s as [|c s].
  - split; [discriminate|]. intros [[H _] _]. congruence.
  - rewrite G. rewrite Z.mul_0_l, Z.add_0_l. split; [intros [F E]; split; [split; [discriminate|assumption]|assumption]|intros [[_ F] E]; auto].
Qed.
Lemma parse_uint_spec hi s n : parse_uint 10 hi s = Some n <->
  exists sign ds, s = sign ++ ds /\ In sign [[]; lit "+"] /\ digits ds /\ Z.of_N n = decimal ds /\ n <= hi.
Proof.
  unfold parse_uint. split.
  - set (b := match s with 43 :: r => r | _ => s end). intros H.
    assert (S : exists sign, s = sign ++ b /\ In sign [[]; lit "+"]).
    { destruct s as [|c r]; [exists []; cbn; auto|]. destruct (N.eq_dec c 43) as [->|]; [exists (lit "+"); cbn; auto|].
      exists []. split; [|cbn; auto]. subst b. destruct c as [|p]; auto. repeat (destruct p; auto). congruence. }
    destruct S as (sign & E & I). destruct (nat_text 10 b) as [v|] eqn:B; [|discriminate].
    destruct (N.leb_spec v hi); [|discriminate]. injection H as <-. apply nat_text_decimal in B as [B1 B2].
    exists sign, b. auto.
  - intros (sign & ds & -> & I & D & V & L).
    assert (B : match sign ++ ds with 43 :: r => r | _ => sign ++ ds end = ds).
    { destruct I as [<-|[<-|[]]]; [|reflexivity]. cbn [app]. destruct D as [N F]. destruct ds as [|c r]; [congruence|].
      apply Forall_inv in F. destruct c as [|p]; auto. repeat (destruct p; auto). lia. }
    rewrite B. rewrite (proj2 (nat_text_decimal ds n)) by auto. destruct (N.leb_spec n hi); [reflexivity|lia].
Qed.
#[export] Instance reads_u16_text : Reads d_u16_text u16_text.
Proof.
  intros v n. unfold d_u16_text, u16_text. split.
  - intros H. inv_obind H. apply text_reads_str in E. unfold parse_u16 in H. apply parse_uint_spec in H as (sign & ds & -> & I & D & V & L).
    exists sign, ds. repeat split; try assumption; try apply D. unfold U16MAX in L. lia.
  - intros (sign & ds & T & I & D & V & L). apply text_reads_str in T. rewrite T. cbn [obind]. apply parse_uint_spec. exists sign, ds.
    split; [reflexivity|]. repeat split; try assumption; try apply D. unfold U16MAX. lia.
Qed.
#[export] Instance reads_bool : Reads d_bool (fun j b => j = JBool b).
Proof. intros v b. unfold d_bool. destruct v; split; congruence. Qed.
Lemma field_reads {A} kvs k (d : json -> option A) R {r : Reads d R} x : reads_as kvs k d x <-> field kvs k R x.
Proof. split; intros (v & O & H); exists v; (split; [exact O|now apply reads]). Qed.
