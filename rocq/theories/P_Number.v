(** Properties C74 (numbers of data lines), C75 (numbers of block arguments) and C76 (written numbers). *)
From Coq Require Import Lia QArith.
From Verif Require Import Base Spec Str Dec Flt FltProofs Json JsonProofs Recs RecsProofs M_Color M_Logic M_View A_Block SpecReading ProjectReadingProofs SpecJson JsonGrammar SpecNumber NumberProofs
  ViewProofs NumberTextProofs NumberShortProofs NumberStdProofs ShortestProofs UniqueProofs SpecRecord RecordProofs P_Json SpecBlock BlockContentProofs.
Local Open Scope Z_scope.

(** C74. A number with few digits is read as the f32 that is nearest to it, a colour as its integer part. *)
Lemma whole_num n z : whole (JNum n) z <-> jfrac n = None /\ jexp n = None /\ z = (if jneg n then - decimal (jint n) else decimal (jint n)) /\ ~ (jneg n = true /\ z = 0).
Proof.
  unfold whole. destruct n as [neg i fr ex]. cbn [jneg jint jfrac jexp]. split.
  - intros (neg' & ds & [= -> -> -> ->] & E & H). auto.
  - intros (-> & -> & E & H). exists neg, i. auto.
Qed.
Lemma whole_abs n z : whole (JNum n) z -> inject_Z (Z.abs z) == exact_value n /\ jneg n = (z <? 0).
Proof.
  rewrite whole_num. intros (F & X & E & H). rewrite (short_value n F X). pose proof (decimal_nonneg (jint n)). destruct (jneg n).
  - split; [|lia]. rewrite E, Z.abs_opp, Z.abs_eq by assumption. reflexivity.
  - split; [|lia]. rewrite E, Z.abs_eq by assumption. reflexivity.
Qed.
(** the two formats are binary64 and binary32 of IEEE-754, and their values are the zeros, the members, the infinities and NaN *)
Theorem C74_formats :
  (forall m e, member F64 m e <-> (m < 2 ^ 53)%N /\ -1074 <= e <= 971 /\ ((2 ^ 52 <= m)%N \/ e = -1074)) /\
  (forall m e, member F32 m e <-> (m < 2 ^ 24)%N /\ -149 <= e <= 104 /\ ((2 ^ 23 <= m)%N \/ e = -149)) /\
  (limit F64 == inject_Z (2 ^ 1024 - 2 ^ 970))%Q /\ (limit F32 == inject_Z (2 ^ 128 - 2 ^ 103))%Q /\
  (forall f x, f = F64 \/ f = F32 -> (canonical f x = true <-> x = FNan \/ exists s, x = FInf s \/ exists m e, member f m e /\ x = float s m e)).
Proof.
  split; [reflexivity|]. split; [reflexivity|]. split; [vm_compute; reflexivity|]. split; [vm_compute; reflexivity|].
  intros f x W. assert (E : emin f <= emax f) by (destruct W as [-> | ->]; discriminate). unfold member, float. split.
  - destruct x as [|s|s|s m e]; [now left|right; exists s; now left| |].
    + intros _. right. exists s. right. exists 0%N, (emin f). split; [|reflexivity]. split; [destruct W as [-> | ->]; reflexivity|]. split; [lia|now right].
    + cbn [canonical]. rewrite !andb_true_iff, orb_true_iff, N.ltb_lt, !N.leb_le, !Z.leb_le, Z.eqb_eq. intros ((((A & B) & C) & D) & G). right. exists s. right. exists m, e.
      split; [repeat split; auto|]. destruct (N.eqb_spec m 0); [lia|reflexivity].
  - intros [->|(s & [->|(m & e & (A & (B & C) & D) & ->)])]; [reflexivity..|]. destruct (N.eqb_spec m 0); [reflexivity|].
    cbn [canonical]. rewrite !andb_true_iff, orb_true_iff, N.ltb_lt, !N.leb_le, !Z.leb_le, Z.eqb_eq. repeat split; auto. lia.
Qed.
Print Assumptions C74_formats.
(** every integer of 64 bits *)
Theorem C74_integer n z x : whole (JNum n) z -> - 2 ^ 63 <= z < 2 ^ 64 -> d_f32 (JNum n) = Some x <-> nearest F32 (jneg n) (exact_value n) x.
Proof.
  intros W B. destruct (whole_abs n z W) as [A N0]. rewrite (reads (d := d_f32)), N0, <- A. apply whole_num in W as W'. destruct W' as (F & X & E & H). split.
  - intros R. inversion R as [j z' x' W' B' R'|j z' x' W' B' R'|n' y x' T R']; subst.
    + apply whole_num in W' as (_ & _ & E' & _). rewrite <- E' in *. rewrite Z.abs_eq by lia. destruct (Z.ltb_spec z' 0); [lia|assumption].
    + apply whole_num in W' as (_ & _ & E' & _). rewrite <- E' in *. rewrite Z.abs_neq by lia. destruct (Z.ltb_spec z' 0); [assumption|lia].
    + exfalso. pose proof (decimal_nonneg (jint n)). destruct T as [y _ _ NI _ _|v e y y' C|v e C].
      * apply NI. split; [assumption|]. split; [assumption|]. destruct (jneg n); lia.
      * destruct C as [C|[C|C]]; [congruence..|]. destruct (jneg n); lia.
      * unfold exponent, exponent_value in C. rewrite X in C. lia.
  - intros R. destruct (Z.ltb_spec z 0).
    + apply (real_neg _ z); [assumption|lia|]. now rewrite Z.abs_neq in R by lia.
    + apply (real_nat _ z); [assumption|lia|]. now rewrite Z.abs_eq in R by lia.
Qed.
Print Assumptions C74_integer.
Lemma integral_whole n : integral n -> exists z, whole (JNum n) z /\ - 2 ^ 63 <= z < 2 ^ 64.
Proof.
  intros (F & X & B). exists (if jneg n then - decimal (jint n) else decimal (jint n)). pose proof (decimal_nonneg (jint n)). split.
  - apply whole_num. split; [assumption|]. split; [assumption|]. split; [reflexivity|]. destruct (jneg n); [lia|easy].
  - destruct (jneg n); lia.
Qed.
Lemma whole_integral n z : whole (JNum n) z -> - 2 ^ 63 <= z < 2 ^ 64 -> integral n.
Proof.
  intros W B. apply whole_num in W as (F & X & E & H). split; [assumption|]. split; [assumption|]. pose proof (decimal_nonneg (jint n)).
  destruct (jneg n); [|lia]. assert (z <> 0) by (intros Z0; now apply H). lia.
Qed.
Lemma integral_dec n : integral n \/ ~ integral n.
Proof.
  unfold integral. destruct (jfrac n); [right; intros (C & _); discriminate|]. destruct (jexp n); [right; intros (_ & C & _); discriminate|].
  destruct (jneg n).
  - destruct (Z_lt_dec 0 (decimal (jint n))), (Z_le_dec (decimal (jint n)) (2 ^ 63)); (left; now repeat split) || (right; lia).
  - destruct (Z_lt_dec (decimal (jint n)) (2 ^ 64)); [left; now repeat split|right; lia].
Qed.
Lemma float_not_integral n y : float_text n y -> ~ integral n.
Proof.
  intros T (F & X & B). destruct T as [y _ _ NI _ _|v e y y' C|v e C].
  - apply NI. now repeat split.
  - pose proof (decimal_nonneg (jint n)). destruct C as [C|[C|C]]; [congruence..|]. destruct (jneg n); lia.
  - unfold exponent, exponent_value in C. rewrite X in C. lia.
Qed.
(** at most eight decimals, less than 2^53 without the point *)
Theorem C74_decimal n x : short n -> -8 <= power n <= 0 -> d_f32 (JNum n) = Some x <-> nearest F32 (jneg n) (exact_value n) x.
Proof.
  intros S P. destruct (integral_dec n) as [I|NI]. { destruct (integral_whole n I) as (z & W & B). now apply (C74_integer n z). }
  assert (K : forall x, d_f32 (JNum n) = Some x -> nearest F32 (jneg n) (exact_value n) x).
  { intros x' R. apply (reads (d := d_f32)) in R. inversion R as [j z' x1 W' B' R'|j z' x1 W' B' R'|n' y x1 T R']; subst.
    - exfalso. apply NI. apply (whole_integral n z'); [assumption|lia].
    - exfalso. apply NI. apply (whole_integral n z'); [assumption|lia].
    - now apply (short_to_f32 n y). }
  split; [apply K|]. intros N0. destruct (short_total n S NI) as [y T]. destruct (nearest_total F32 (negative y) (magnitude y) wide_F32) as [x' X].
  { destruct y as [| | |s m e]; cbn [magnitude]; try apply Qle_refl. unfold binary. apply Qmult_le_0_compat; [|now apply Qpower.Qpower_0_le]. change 0%Q with (inject_Z 0). rewrite <- Zle_Qle. lia. }
  assert (R : d_f32 (JNum n) = Some x') by (apply (reads (d := d_f32)); now apply (real_float n y)).
  rewrite R. f_equal. apply (nearest_unique F32 (jneg n) (exact_value n)); [exact wide_F32|apply exact_nonneg|now apply K|assumption].
Qed.
Print Assumptions C74_decimal.
(** up to 22 decimals, or 22 zeros: the f32 is rounded from the nearest f64 *)
Theorem C74_double n x : short n -> ~ integral n -> d_f32 (JNum n) = Some x <-> exists y, nearest F64 (jneg n) (exact_value n) y /\ to_f32 y x.
Proof.
  intros S NI. rewrite (reads (d := d_f32)). split.
  - intros R. inversion R as [j z' x1 W' B' R'|j z' x1 W' B' R'|n' y x1 T R']; subst.
    + exfalso. apply NI. apply (whole_integral n z'); [assumption|lia].
    + exfalso. apply NI. apply (whole_integral n z'); [assumption|lia].
    + exists y. split; [now apply short_f64|assumption].
  - intros (y & Y & X). destruct (short_total n S NI) as [y' T]. pose proof (short_f64 n y' S T) as Y'.
    assert (y = y') as -> by (apply (nearest_unique F64 (jneg n) (exact_value n)); [exact wide_F64|apply exact_nonneg|assumption..]). now apply (real_float n y').
Qed.
Print Assumptions C74_double.
Theorem C74_color n c : short n -> d_color (JNum n) = Some c <-> exists z, whole_part (jneg n) (exact_value n) z /\ Z.of_N (cval c) = z mod 2 ^ 32.
Proof.
  intros S. rewrite (reads (d := d_color)). destruct (integral_dec n) as [I|NI].
  - destruct (integral_whole n I) as (z & W & B). destruct (whole_abs n z W) as [A N0].
    assert (Z53 : Z.abs z < 2 ^ 53).
    { destruct S as (S & _ & _). destruct I as (F & X & _). unfold digits_value, fraction in S. rewrite F, app_nil_r in S. apply whole_num in W as (_ & _ & -> & _).
      pose proof (decimal_nonneg (jint n)). destruct (jneg n); lia. }
    set (w := Z.min (Z.max z (- 2 ^ 31)) (2 ^ 31 - 1)).
    assert (P : forall z', whole_part (jneg n) (exact_value n) z' <-> z' = w).
    { intros z'. rewrite <- (whole_Qeq (jneg n) _ _ z' A), N0. unfold whole_part. split.
      - intros (t & [T1 T2] & ->). rewrite <- Zle_Qle in T1. rewrite <- Zlt_Qlt in T2. assert (t = Z.abs z) as -> by lia. unfold w. destruct (Z.ltb_spec z 0); lia.
      - intros ->. exists (Z.abs z). rewrite <- Zle_Qle, <- Zlt_Qlt. split; [lia|]. unfold w. destruct (Z.ltb_spec z 0); lia. }
    split.
    + intros R. inversion R as [j z' c' W' B' R'|n' y z' c' T Y R']; subst.
      * exists w. split; [now apply P|]. rewrite R'. apply whole_num in W as (_ & _ & E & _). apply whole_num in W' as (_ & _ & E' & _). assert (z' = z) as -> by congruence.
        destruct (Z.ltb_spec z (2 ^ 63)); [reflexivity|lia].
      * now apply float_not_integral in T.
    + intros (z' & Z0 & E). apply P in Z0. subst z'. apply (colour_whole _ z); [assumption|assumption|]. rewrite E. unfold w. destruct (Z.ltb_spec z (2 ^ 63)); [reflexivity|lia].
  - split.
    + intros R. inversion R as [j z' c' W' B' R'|n' y z' c' T Y R']; subst.
      * exfalso. apply NI. apply (whole_integral n z'); [assumption|lia].
      * exists z'. split; [now apply (short_to_i32 n y)|assumption].
    + intros (z & Z0 & E). destruct (short_total n S NI) as [y T]. apply (colour_float n y z); [assumption|now apply (short_to_i32 n y)|assumption].
Qed.
Print Assumptions C74_color.

(** the number fields of a view line, and the colour of a block line *)
Lemma only_unique kvs k v v' : only kvs k v -> only kvs k v' -> v = v'.
Proof. rewrite <- !vals_only. congruence. Qed.
Lemma only_in kvs k v : only kvs k v -> In (Some k) (map fst kvs).
Proof. intros (p & q & -> & _). rewrite map_app. apply in_or_app. right. now left. Qed.
Lemma record_field fs kvs name R v : record fs (JObj kvs) -> In (name, R) fs -> only kvs (lit name) v -> R (Some v).
Proof.
  intros (vs & F & V) I O. inversion F as [kvs' vs' K Fv|]; subst. clear F K. revert vs Fv V. induction fs as [|[n R'] fs IH]; intros vs Fv V; [easy|].
  cbn [map fst] in Fv. inversion Fv as [|? o ? os E Fv']; subst. inversion V as [|? ? ? ? H V']; subst. destruct I as [[= -> ->]|I]; [|now apply (IH I os)].
  cbn [snd] in H. destruct o as [v'|].
  - now rewrite (only_unique kvs (lit name) v v').
  - exfalso. apply E. now apply (only_in kvs _ v).
Qed.
Theorem C74_view s kvs v name get n : view_line_parse s = Some v -> json_text (JObj kvs) s ->
  In (name, get) [("alpha", av_alpha); ("scaleX", av_scale_x); ("scaleY", av_scale_y); ("translationX", av_translation_x); ("translationY", av_translation_y)]%string ->
  only kvs (lit name) (JNum n) -> short n -> -8 <= power n <= 0 -> nearest F32 (jneg n) (exact_value n) (get v).
Proof.
  intros P T I O S W. apply C72_view in P as (j & T' & V). rewrite (C73_unique _ _ _ T' T) in V. apply (C74_decimal n (get v) S W). apply (reads (d := d_f32)).
  assert (G : given real (get v) (Some (JNum n))).
  { apply (record_field _ kvs name _ _ V); [|exact O]. cbn [In] in I. repeat destruct I as [I|I]; try (injection I as <- <-; cbn [In]; tauto). destruct I. }
  destruct G as (w & [= <-] & G). exact G.
Qed.
Print Assumptions C74_view.
Theorem C74_block s kvs b n : block_parse s = Ok b -> json_text (JObj kvs) s -> only kvs (lit "color") (JNum n) -> short n ->
  exists z, whole_part (jneg n) (exact_value n) z /\ Z.of_N (cval (bl_color b)) = z mod 2 ^ 32.
Proof.
  intros P T O S. apply C72_block in P as (j & T' & V). rewrite (C73_unique _ _ _ T' T) in V. apply (C74_color n (bl_color b) S). apply (reads (d := d_color)).
  assert (G : given colour (bl_color b) (Some (JNum n))) by (apply (record_field _ kvs "color"%string _ _ V); [cbn [In]; tauto|exact O]).
  destruct G as (w & [= <-] & G). exact G.
Qed.
Print Assumptions C74_block.
(** 0.1 is read as 13421773 * 2^-27 and this is the nearest value; a colour with decimals; a value in the middle of two f32
    values goes to the even one, and so does a number of 18 digits next to it, although it is not the nearest *)
Definition num (neg : bool) (i f : string) : jnum := {| jneg := neg; jint := lit i; jfrac := Some (lit f); jexp := None |}.
Example C74_example :
  short (num false "0" "1") /\ d_f32 (JNum (num false "0" "1")) = Some (FFin false 13421773 (-27)) /\
  nearest F32 false (1 # 10) (FFin false 13421773 (-27)) /\
  d_color (JNum (num true "16777216" "9")) = Some {| cval := 4278190080 |} /\
  d_f32 (JNum (num true "16777217" "0")) = Some (FFin true 8388608 1) /\
  d_f32 (JNum (num false "16777217" "00000001")) = Some (FFin false 8388609 1).
Proof.
  split; [unfold short; vm_compute; repeat split; discriminate|]. split; [vm_compute; reflexivity|]. split; [|vm_compute; auto].
  apply (nearest_iff F32 false 1 10); [exact wide_F32|reflexivity|vm_compute; reflexivity].
Qed.
Example C74_example_long :
  let n := num false "1" "00000005960464478" in
  d_f32 (JNum n) = Some (FFin false 8388608 (-23)) /\ ~ nearest F32 false (exact_value n) (FFin false 8388608 (-23)).
Proof.
  split; [vm_compute; reflexivity|]. intros H. apply (nearest_iff F32 false 100000005960464478 100000000000000000 _ wide_F32 eq_refl) in H. vm_compute in H. discriminate H.
Qed.

(** C75. A number argument of a block means the f64 that is nearest to the decimal number, or an infinity or NaN by name. *)
Theorem C75_number s x : parse_f64 s = Some x <-> number_text s x.
Proof. apply parse_f64_text. Qed.
Print Assumptions C75_number.
Theorem C75_argument {B} s (x : flt) : @value_or_block B flt number_arg s = Ok (AValue x) <-> (forall r, s <> 64%N :: r) /\ number_text s x.
Proof. apply (value_or_block_iff number_arg number_text s (AValue x)). intros y t. apply number_arg_iff. Qed.
Print Assumptions C75_argument.
(** a text means at most one number, and the written text of a number means that number *)
Theorem C75_unique s x y : number_text s x -> number_text s y -> x = y.
Proof. rewrite <- !parse_f64_text. congruence. Qed.
Print Assumptions C75_unique.
Theorem C75_written x : canonical F64 x = true -> number_text (display_f64 x) x.
Proof. intros C. now apply parse_f64_text, parse_display_f64. Qed.
Print Assumptions C75_written.
Example C75_example :
  number_text (lit "-.5e1") (FFin true 5629499534213120 (-50)) /\ number_text (lit "+InFinity") (FInf false) /\ number_text (lit "1e400") (FInf false) /\
  number_text (lit "9007199254740993") (FFin false 4503599627370496 1) /\ ~ (exists x, number_text (lit ".") x) /\ ~ (exists x, number_text (lit "1e") x) /\
  ~ (exists x, number_text (lit " 1") x) /\ ~ (exists x, number_text (lit "0x1") x).
Proof.
  repeat split; try (apply parse_f64_text; vm_compute; reflexivity); intros [x H]; apply parse_f64_text in H; vm_compute in H; discriminate H.
Qed.

(** C76. Numbers are written with the fewest digits that read back. *)
Theorem C76_argument neg m e s : canonical F64 (FFin neg m e) = true ->
  (display_f64 (FFin neg m e) = s <-> exists D E t, shortest_decimal true F64 neg m e D E /\ positional D E t /\ s = (if neg then lit "-" else []) ++ t).
Proof.
  intros C. destruct (display_shortest neg m e C) as (D & E & t & S & P & ->). split; [intros <-; now exists D, E, t|].
  intros (D' & E' & t' & S' & P' & ->). destruct (shortest_unique true F64 neg m e D E D' E' enough_F64 C S S') as [<- <-]. now rewrite (positional_unique D E t t' P P').
Qed.
Print Assumptions C76_argument.
Theorem C76_special : display_f64 FNan = lit "NaN" /\ display_f64 (FInf false) = lit "inf" /\ display_f64 (FInf true) = lit "-inf" /\
  display_f64 (FZero false) = lit "0" /\ display_f64 (FZero true) = lit "-0".
Proof. repeat split. Qed.
Print Assumptions C76_special.
(** the texts are determined by the decimal *)
Theorem C76_text D E t t' : positional D E t -> positional D E t' -> t = t'.
Proof. apply positional_unique. Qed.
Print Assumptions C76_text.
Theorem C76_digits neg m e n : canonical F32 (FFin neg m e) = true ->
  (e_f32 (FFin neg m e) = JNum n <-> exists D E, shortest_decimal false F32 neg m e D E /\ json_decimal neg D E n).
Proof.
  intros C. destruct (e_f32_shortest neg m e C) as (D & E & n' & S & P & ->). split; [intros [= <-]; now exists D, E|].
  intros (D' & E' & S' & P'). destruct (shortest_unique false F32 neg m e D E D' E' enough_F32 C S S') as [<- <-].
  now rewrite (json_unique neg D E n n' (interval_nonzero F32 neg m e D E (proj1 enough_F32) C (proj1 S)) P' P).
Qed.
Print Assumptions C76_digits.
(** there is exactly one such decimal *)
Theorem C76_one up f neg m e : f = F64 \/ f = F32 -> canonical f (FFin neg m e) = true -> exists D E, shortest_decimal up f neg m e D E /\
  forall D' E', shortest_decimal up f neg m e D' E' -> D' = D /\ E' = E.
Proof.
  intros H C. assert (EN : enough f) by (destruct H as [->| ->]; [exact enough_F64|exact enough_F32]).
  destruct (shortest up (fun D E => flt_eqb (round_dec f false D E) (FFin false m e)) f m e) as [D E] eqn:S. pose proof (search_shortest up f neg m e D E EN C S) as R.
  destruct (D mod 10 =? 0)%N; eexists _, _; (split; [exact R|]); intros D' E' S'; exact (shortest_unique up f neg m e _ _ _ _ EN C S' R).
Qed.
Print Assumptions C76_one.
Lemma distinct_names l : (fix go l := match l with [] => true | k :: r => negb (existsb (String.eqb k) r) && go r end) l = true -> NoDup (map lit l).
Proof.
  induction l as [|k l IH]; cbn; intros H; constructor; apply andb_prop in H as [H1 H2]; [|auto]. intros X. apply in_map_iff in X as (k' & E & K). apply lit_inj in E as ->.
  apply negb_true_iff in H1. assert (existsb (String.eqb k) l = true) by (apply existsb_exists; exists k; split; [assumption|apply String.eqb_refl]). congruence.
Qed.
(** in the line of a view; the bound of a 32-bit float is [canonical] *)
Theorem C76_view v name get neg m e : Forall (fun f => canonical F32 f = true) (view_f32 v) ->
  In (name, get) [("alpha", av_alpha); ("scaleX", av_scale_x); ("scaleY", av_scale_y); ("translationX", av_translation_x); ("translationY", av_translation_y)]%string ->
  get v = FFin neg m e ->
  exists kvs n D E, json_text (JObj kvs) (view_line_reconstruct v) /\ only kvs (lit name) (JNum n) /\ shortest_decimal false F32 neg m e D E /\ json_decimal neg D E n.
Proof.
  intros F I G. assert (C : canonical F32 (get v) = true).
  { rewrite Forall_forall in F. apply F. unfold view_f32. cbn [In] in *. repeat destruct I as [I|I]; try (injection I as <- <-; tauto). destruct I. }
  rewrite G in C. destruct (e_f32_shortest neg m e C) as (D & E & n & S & J & W). rewrite <- G in W.
  pose proof (proj2 (proj2 (proj2 (proj2 (proj2 (proj2 C73_lines))))) v F) as [T _].
  unfold e_view, e_obj in T. eexists _, n, D, E. split; [exact T|]. split; [|auto]. rewrite <- W.
  assert (O : In (name, e_f32 (get v)) (android_view_fields v)).
  { cbn [In] in I. unfold android_view_fields, e_skip. destruct (av_parent v), (av_pre_id v), (av_pre_parent v); cbn [app];
      repeat destruct I as [I|I]; try (injection I as <- <-; clear; repeat (first [left; reflexivity|right]); fail); destruct I. }
  assert (ND : NoDup (map (fun kv => lit (fst kv)) (android_view_fields v))).
  { clear. rewrite <- (map_map fst lit). apply distinct_names. unfold android_view_fields, e_skip.
    destruct (av_parent v), (av_pre_id v), (av_pre_parent v); vm_compute; reflexivity. }
  apply in_split in O as (pre & post & O). rewrite O, map_app. cbn [map fst snd]. eexists _, _. split; [reflexivity|]. rewrite <- map_app.
  rewrite O, map_app in ND. cbn [map fst] in ND. apply NoDup_remove_2 in ND. rewrite <- map_app in ND. rewrite map_map. cbn [fst]. intros X. apply ND.
  apply in_map_iff in X as (kv & [= X] & K). rewrite <- X. now apply (in_map (fun kv => lit (fst kv))).
Qed.
Print Assumptions C76_view.
Example C76_example :
  display_f64 (FFin false 7205759403792794 (-56)) = lit "0.1" /\ display_f64 (FFin true 7555786372591432 (-76)) = lit "-0.0000001" /\
  display_f64 (FFin false 5960464477539062 24) = lit "100000000000000000000000" /\ display_f64 (FFin false 4503599627370496 (-62)) = lit "0.0009765625" /\
  print_json (e_f32 (FFin false 13421773 (-27))) = lit "0.1" /\ print_json (e_f32 (FFin true 12582912 (-22))) = lit "-3.0" /\
  print_json (e_f32 (FFin false 1 (-149))) = lit "1e-45" /\ print_json (e_f32 (FFin false 9765625 20)) = lit "1.024e13" /\
  (* halfway: 1125899906842624.25 and 2097152.25 *)
  display_f64 (FFin false 4503599627370497 (-2)) = lit "1125899906842624.3" /\ print_json (e_f32 (FFin false 8388609 (-2))) = lit "2097152.2".
Proof. vm_compute. repeat split. Qed.
