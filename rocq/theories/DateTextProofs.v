(** Proofs: the reader of dates against SpecDate.v *)
From Coq Require Import Znumtheory.
From Verif Require Import Base Spec Str Dec Flt Json JsonProofs LogicMapProofs M_Color M_Date DateProofs M_Project SpecReading ProjectReadingProofs SpecJson SpecNumber NumberTextProofs SpecRecord RecordProofs SpecDate.
Local Open Scope Z_scope.

(** ** Calendar *)
Lemma leap_spec y : leap y = true <-> leap_year y.
Proof.
  unfold leap, leap_year. rewrite orb_true_iff, andb_true_iff, negb_true_iff, !Z.eqb_eq, Z.eqb_neq.
  rewrite <- !Z.mod_divide by lia. split.
  - intros [[A B]|C]; [auto|]. split; [|auto]. pose proof (Z.div_mod y 400 ltac:(lia)). rewrite C in H. rewrite H.
    replace (400 * (y / 400) + 0) with ((100 * (y / 400)) * 4) by lia. apply Z.mod_mul. lia.
  - intros [A [B|C]]; auto.
Qed.
Lemma month_days_spec y m n : month_days y m n <-> 1 <= m <= 12 /\ n = days_in_month y m.
Proof.
  split.
  - intros [m' H|m' H|H|H].
    + cbn in H. split; [lia|]. unfold days_in_month.
      repeat (destruct H as [<-|H]; [reflexivity|]). destruct H.
    + cbn in H. split; [lia|]. unfold days_in_month.
      repeat (destruct H as [<-|H]; [reflexivity|]). destruct H.
    + split; [lia|]. unfold days_in_month. cbn. destruct (leap y) eqn:L; [|reflexivity]. now apply leap_spec in L.
    + split; [lia|]. unfold days_in_month. cbn. apply leap_spec in H. now rewrite H.
  - intros [M ->]. unfold days_in_month. destruct (Z.eqb_spec m 2) as [->|N2].
    + destruct (leap y) eqn:L; [apply md_29; now apply leap_spec|apply md_28]. intros H. apply leap_spec in H. congruence.
    + destruct (Z.eqb_spec m 4) as [->|]; [apply md_30; cbn; auto|]. destruct (Z.eqb_spec m 6) as [->|]; [apply md_30; cbn; auto|].
      destruct (Z.eqb_spec m 9) as [->|]; [apply md_30; cbn; auto|]. destruct (Z.eqb_spec m 11) as [->|]; [apply md_30; cbn; auto|].
      cbn [orb]. apply md_31. cbn. lia.
Qed.
Lemma day_after_spec y m d b : day_after (y, m, d) b <-> valid_ymd y m d = true /\ b = next_day y m d.
Proof.
  unfold valid_ymd, next_day. rewrite !andb_true_iff, !Z.leb_le. split.
  - intros H. inversion H as [y' m' d' n M D|y' m' n M L|y']; subst.
    + apply month_days_spec in M as [M ->]. split; [lia|]. destruct (Z.ltb_spec d (days_in_month y m)); [reflexivity|lia].
    + apply month_days_spec in M as [M ->].
      assert (1 <= days_in_month y m) by (unfold days_in_month; destruct (m =? 2); [destruct (leap y); lia|]; destruct ((m =? 4) || (m =? 6) || (m =? 9) || (m =? 11)); lia).
      split; [lia|]. rewrite Z.ltb_irrefl. destruct (Z.ltb_spec m 12); [reflexivity|lia].
    + split; [vm_compute; intuition discriminate|]. reflexivity.
  - intros [(((M1 & M2) & D1) & D2) ->]. destruct (Z.ltb_spec d (days_in_month y m)).
    + apply (da_day y m d (days_in_month y m)); [|lia]. apply month_days_spec. lia.
    + assert (d = days_in_month y m) by lia. subst d. destruct (Z.ltb_spec m 12).
      * apply da_month; [|assumption]. apply month_days_spec. lia.
      * assert (m = 12) by lia. subst m. apply da_year.
Qed.
Lemma next_of_days n : let '(y, m, d) := ymd_of_days n in valid_ymd y m d = true /\ next_day y m d = ymd_of_days (n + 1).
Proof.
  pose proof (ymd_of_days_valid n) as H. destruct (ymd_of_days n) as [[y m] d]. destruct H as [V E]. split; [assumption|].
  pose proof (next_day_succ _ _ _ V) as N. destruct (next_day y m d) as [[y' m'] d']. destruct N as [V' E']. rewrite <- E, <- E'.
  symmetry. now apply ymd_of_days_of.
Qed.
Lemma day_number_all n : day_number (ymd_of_days n) n.
Proof.
  assert (U : forall k : nat, day_number (ymd_of_days (Z.of_nat k)) (Z.of_nat k)).
  { induction k as [|k IH]; [apply dn_epoch|]. pose proof (next_of_days (Z.of_nat k)) as H. destruct (ymd_of_days (Z.of_nat k)) as [[y m] d] eqn:E.
    destruct H as [V N]. rewrite Nat2Z.inj_succ. unfold Z.succ. rewrite <- N. eapply dn_next; [exact IH|]. apply day_after_spec. auto. }
  assert (D : forall k : nat, day_number (ymd_of_days (- Z.of_nat k)) (- Z.of_nat k)).
  { induction k as [|k IH]; [apply dn_epoch|]. pose proof (next_of_days (- Z.of_nat (S k))) as H. destruct (ymd_of_days (- Z.of_nat (S k))) as [[y m] d] eqn:E.
    destruct H as [V N]. replace (- Z.of_nat (S k) + 1) with (- Z.of_nat k) in N by lia. replace (- Z.of_nat (S k)) with (- Z.of_nat k - 1) by lia.
    eapply dn_prev; [exact IH|]. apply day_after_spec. auto. }
  destruct (Z.le_ge_cases 0 n) as [P|P]; [rewrite <- (Z2Nat.id n) by lia; apply U|]. replace n with (- Z.of_nat (Z.to_nat (- n))) by lia. apply D.
Qed.
Lemma day_number_spec y m d n : day_number (y, m, d) n <-> valid_ymd y m d = true /\ n = days_of_ymd y m d.
Proof.
  split.
  - assert (G : forall a n, day_number a n -> let '(y, m, d) := a in valid_ymd y m d = true /\ n = days_of_ymd y m d).
    { clear. induction 1 as [|[[y m] d] b n _ [V E] A|a [[y m] d] n _ [V E] A].
      - split; reflexivity.
      - apply day_after_spec in A as [_ ->]. pose proof (next_day_succ _ _ _ V) as N. destruct (next_day y m d) as [[y' m'] d']. destruct N as [V' E']. split; [auto|lia].
      - destruct a as [[y' m'] d']. apply day_after_spec in A as [V' A]. pose proof (next_day_succ _ _ _ V') as N. rewrite <- A in N. destruct N as [_ E']. split; [auto|lia]. }
    exact (G (y, m, d) n).
  - intros [V ->]. rewrite <- (ymd_of_days_of y m d V) at 1. apply day_number_all.
Qed.

(** ** Pieces *)

(** read pieces one after the other from byte [a] of [v] *)
Fixpoint run (fs : list (nat * (str -> option Z))) (v : str) (a : nat) : res unit (list Z) :=
  match fs with
  | [] => Ok []
  | (n, f) :: fs => let* s := unwrap (bslice a (a + n) v) in let* z := ok_or tt (f s) in let* zs := run fs v (a + n) in Ok (z :: zs)
  end.
Definition matches (f : nat * (str -> option Z)) (p : piece) : Prop := fst f = fst p /\ forall t z, blen t = fst p -> snd f t = Some z <-> snd p t z.
Lemma bslice_from pre d n : bslice (blen pre) (blen pre + n) (pre ++ d) = btake n d.
Proof. unfold bslice. destruct (Nat.leb_spec (blen pre) (blen pre + n)); [|lia]. rewrite bdrop_app. cbn [obind]. f_equal. lia. Qed.
Lemma btake_none n d : btake n d = None <-> forall p q, d = p ++ q -> blen p <> n.
Proof.
  split.
  - intros H p q -> E. subst n. rewrite btake_app in H. discriminate.
  - intros H. destruct (btake n d) as [p|] eqn:B; [|reflexivity]. apply btake_spec in B as (q & E & L). destruct (H p q E L).
Qed.
Lemma blen_cut p p' d d' : p ++ d = p' ++ d' -> blen p = blen p' -> p = p' /\ d = d'.
Proof.
  intros E L. apply app_eq_app in E as (l & [[-> ->]|[-> ->]]); rewrite blen_app in L; destruct l as [|c l]; cbn [blen] in L; try (pose proof (u8len_pos c); lia); rewrite app_nil_r; auto.
Qed.
Lemma run_spec fs ps : Forall2 matches fs ps -> forall pre d,
  match run fs (pre ++ d) (blen pre) with
  | Ok zs => exists rest, cut ps d zs [] rest
  | Err _ => exists zs n (R : str -> Z -> Prop) ps' p rest, cut ps d zs ((n, R) :: ps') (p ++ rest) /\ blen p = n /\ forall z, ~ R p z
  | Panic => exists zs n (R : str -> Z -> Prop) ps' rest, cut ps d zs ((n, R) :: ps') rest /\ forall p q, rest = p ++ q -> blen p <> n
  end.
Proof.
  induction 1 as [|[n f] [n' R] fs ps [E M] F IH]; intros pre d; cbn [run]; [exists d; constructor|]. cbn [fst snd] in E, M. subst n'.
  rewrite bslice_from. destruct (btake n d) as [p|] eqn:B; cbn [unwrap bind].
  - apply btake_spec in B as (q & -> & L). destruct (f p) as [z|] eqn:Z; cbn [ok_or bind].
    + apply M in Z; [|assumption]. specialize (IH (pre ++ p) q). rewrite blen_app, L, <- app_assoc in IH. destruct (run fs _ _) as [zs|[]|]; cbn [bind].
      * destruct IH as (rest & C). exists rest. now constructor.
      * destruct IH as (zs & n0 & R0 & ps' & p0 & rest & C & H). exists (z :: zs), n0, R0, ps', p0, rest. split; [now constructor|assumption].
      * destruct IH as (zs & n0 & R0 & ps' & rest & C & H). exists (z :: zs), n0, R0, ps', rest. split; [now constructor|assumption].
    + exists [], n, R, ps, p, q. split; [constructor|]. split; [assumption|]. intros z H. apply M in H; [congruence|assumption].
  - exists [], n, R, ps, d. split; [constructor|]. now apply btake_none.
Qed.
(** how far the text can be read is determined *)
Definition functional (ps : list piece) : Prop := Forall (fun p : piece => forall t z z', snd p t z -> snd p t z' -> z = z') ps.
Lemma cut_nil ps d ps' rest : cut ps d [] ps' rest <-> ps' = ps /\ rest = d.
Proof. split; [intros H; inversion H; auto|]. intros [-> ->]. constructor. Qed.
Lemma cut_cons ps d z zs ps' rest : cut ps d (z :: zs) ps' rest <->
  exists n (R : str -> Z -> Prop) q p d', ps = (n, R) :: q /\ d = p ++ d' /\ blen p = n /\ R p z /\ cut q d' zs ps' rest.
Proof.
  split.
  - intros H. inversion H; subst. eexists _, _, _, _, _. repeat split; eauto.
  - intros (n & R & q & p & d' & -> & -> & L & HR & C). now constructor.
Qed.
Lemma cut_step ps zs : functional ps -> forall d ps' rest zs2 ps2 rest2,
  cut ps d zs ps' rest -> cut ps d zs2 ps2 rest2 -> (length zs <= length zs2)%nat ->
  exists more, zs2 = zs ++ more /\ cut ps' rest more ps2 rest2.
Proof.
  intros F. revert zs. induction ps as [|[n R] ps IH]; intros zs d ps' rest zs2 ps2 rest2 C C2 L.
  - inversion C; subst. exists zs2. auto.
  - destruct zs as [|z zs]; [apply cut_nil in C as [-> ->]; exists zs2; auto|]. destruct zs2 as [|z2 zs2]; [cbn in L; lia|].
    apply cut_cons in C as (n1 & R1 & q1 & p1 & d1 & E1 & -> & L1 & H1 & C). apply cut_cons in C2 as (n2 & R2 & q2 & p2 & d2 & E2 & E3 & L2 & H2 & C2).
    injection E1 as <- <- <-. injection E2 as <- <- <-. apply blen_cut in E3 as [<- <-]; [|congruence]. inversion F as [|? ? F1 F2]; subst.
    rewrite (F1 _ _ _ H2 H1). destruct (IH F2 zs d1 ps' rest zs2 ps2 rest2 C C2 ltac:(cbn in L; lia)) as (more & -> & M). exists more. auto.
Qed.
Lemma cut_length ps d zs ps' rest : cut ps d zs ps' rest -> length ps = (length zs + length ps')%nat.
Proof. induction 1; cbn [length]; lia. Qed.
Lemma cut_all ps d zs zs' rest rest' : functional ps -> cut ps d zs [] rest -> cut ps d zs' [] rest' -> zs = zs'.
Proof.
  intros F C C'. pose proof (cut_length _ _ _ _ _ C). pose proof (cut_length _ _ _ _ _ C'). cbn in *.
  destruct (cut_step _ _ F _ _ _ _ _ _ C C' ltac:(lia)) as (more & -> & M). rewrite app_length in H0. destruct more; [now rewrite app_nil_r|cbn in H0; lia].
Qed.
(** a text that cannot be cut further, or where a piece is no number, has no more numbers *)
Lemma cut_stuck ps d zs n (R : str -> Z -> Prop) ps' rest zs2 ps2 rest2 : functional ps -> cut ps d zs ((n, R) :: ps') rest -> cut ps d zs2 ps2 rest2 ->
  (forall p q z, rest = p ++ q -> blen p = n -> ~ R p z) -> (length zs2 <= length zs)%nat.
Proof.
  intros F C C2 H. destruct (Nat.le_gt_cases (length zs2) (length zs)) as [|G]; [assumption|]. exfalso.
  destruct (cut_step _ _ F _ _ _ _ _ _ C C2 ltac:(lia)) as (more & -> & M). rewrite app_length in G. destruct more as [|z more]; [cbn in G; lia|].
  apply cut_cons in M as (n1 & R1 & q1 & p1 & d1 & E1 & -> & L1 & H1 & M). injection E1 as <- <- <-. eapply H; eauto.
Qed.
Lemma stuck_same ps d zs n (R : str -> Z -> Prop) ps' rest zs2 n2 (R2 : str -> Z -> Prop) ps2 rest2 : functional ps ->
  cut ps d zs ((n, R) :: ps') rest -> cut ps d zs2 ((n2, R2) :: ps2) rest2 ->
  (forall p q z, rest = p ++ q -> blen p = n -> ~ R p z) -> (forall p q z, rest2 = p ++ q -> blen p = n2 -> ~ R2 p z) ->
  zs = zs2 /\ n = n2 /\ rest = rest2.
Proof.
  intros F C C2 H H2. pose proof (cut_stuck _ _ _ _ _ _ _ _ _ _ F C C2 H). pose proof (cut_stuck _ _ _ _ _ _ _ _ _ _ F C2 C H2).
  destruct (cut_step _ _ F _ _ _ _ _ _ C C2 ltac:(lia)) as (more & -> & M). rewrite app_length in *. destruct more; [|cbn in *; lia].
  apply cut_nil in M as [E ->]. rewrite app_nil_r. injection E as <- _ _. auto.
Qed.

(** ** [date_de] *)
Definition fields : list (nat * (str -> option Z)) :=
  [(4%nat, parse_i32); (2%nat, fun s => option_map Z.of_N (parse_u32 s)); (2%nat, fun s => option_map Z.of_N (parse_u32 s)); (2%nat, fun s => option_map Z.of_N (parse_u32 s));
   (2%nat, fun s => option_map Z.of_N (parse_u32 s)); (2%nat, fun s => option_map Z.of_N (parse_u32 s))].

Lemma decimal_lt ds : Forall (fun c => 48 <= c <= 57)%N ds -> decimal ds < 10 ^ Z.of_nat (length ds).
Proof.
  induction 1 as [|c ds H _ IH]; cbn [decimal length]; [lia|]. rewrite Nat2Z.inj_succ, Z.pow_succ_r by lia.
  assert (Z.of_N (c - 48) <= 9) by lia. nia.
Qed.
Lemma length_blen s : (length s <= blen s)%nat.
Proof. induction s as [|c s IH]; cbn [length blen]; [lia|]. pose proof (u8len_pos c). lia. Qed.
Lemma decimal_small ds : digits ds -> (blen ds <= 4)%nat -> 0 <= decimal ds < 10000.
Proof.
  intros [_ D] L. pose proof (decimal_nonneg ds). pose proof (decimal_lt _ D). pose proof (length_blen ds). split; [assumption|].
  apply Z.lt_le_trans with (1 := H0). change 10000 with (10 ^ 4). apply Z.pow_le_mono_r; lia.
Qed.
Lemma uint_spec max t n : (10000 <= max)%N -> (blen t <= 4)%nat -> parse_uint 10 max t = Some n <-> unsigned t (Z.of_N n).
Proof.
  intros M L. unfold unsigned. split.
  - intros P. apply parse_uint_spec in P as (sign & ds & -> & I & D & V & _). exists sign, ds. auto.
  - intros (sign & ds & -> & I & D & V). rewrite blen_app in L. pose proof (decimal_small ds D ltac:(lia)).
    apply parse_uint_spec. exists sign, ds. repeat split; auto; try apply D. lia.
Qed.
Lemma unsigned_nonneg t z : unsigned t z -> 0 <= z.
Proof. intros (? & ds & _ & _ & _ & ->). apply decimal_nonneg. Qed.
Lemma unsigned_spec t z : (blen t <= 4)%nat -> option_map Z.of_N (parse_u32 t) = Some z <-> unsigned t z.
Proof.
  intros L. split.
  - unfold parse_u32. destruct (parse_uint 10 U32MAX t) as [n|] eqn:P; [|discriminate]. intros [= <-]. revert P. apply uint_spec; [vm_compute; discriminate|assumption].
  - intros U. pose proof (unsigned_nonneg _ _ U). rewrite <- (Z2N.id z) in U by assumption. apply (uint_spec U32MAX) in U; [|vm_compute; discriminate|assumption].
    unfold parse_u32. rewrite U. cbn [option_map]. f_equal. lia.
Qed.
Lemma unsigned_head t z : unsigned t z -> hd 0%N t <> 45%N.
Proof.
  intros (sign & ds & -> & I & (N0 & D) & _). destruct I as [<-|[<-|[]]]; [|discriminate]. destruct D as [|c ds H _]; [congruence|]. cbn. lia.
Qed.
Lemma signed_spec t z : (blen t <= 4)%nat -> parse_i32 t = Some z <-> signed t z.
Proof.
  intros L. unfold parse_i32, signed. destruct (N.eq_dec (hd 0%N t) 45) as [E|E].
  - destruct t as [|c r]; [discriminate|]. cbn [hd] in E. subst c. cbn [parse_int]. split.
    + intros H. right. destruct (nat_text 10 r) as [v|] eqn:V; [|discriminate]. destruct (N.leb_spec v 2147483648); [|discriminate]. injection H as <-.
      apply nat_text_decimal in V as [D V]. exists r. split; [reflexivity|]. split; [assumption|lia].
    + intros [U|(ds & E & D & ->)]; [apply unsigned_head in U; now destruct U|]. change (lit "-") with [45%N] in E. injection E as ->.
      cbn [blen] in L. pose proof (decimal_small ds D ltac:(lia)) as B.
      assert (V : nat_text 10 ds = Some (Z.to_N (decimal ds))) by (apply nat_text_decimal; split; [assumption|lia]).
      rewrite V. destruct (N.leb_spec (Z.to_N (decimal ds)) 2147483648); [|lia]. f_equal. lia.
  - rewrite parse_int_nosign by assumption. split.
    + intros H. left. destruct (parse_uint 10 I32MAX t) as [n|] eqn:P; [|discriminate]. injection H as <-. revert P. apply uint_spec; [vm_compute; discriminate|assumption].
    + intros [U|(ds & -> & _)]; [|now destruct E]. pose proof (unsigned_nonneg _ _ U). rewrite <- (Z2N.id z) in U by assumption.
      apply (uint_spec I32MAX) in U; [|vm_compute; discriminate|assumption]. rewrite U. f_equal. lia.
Qed.
Lemma fields_pieces : Forall2 matches fields pieces.
Proof.
  unfold fields, pieces. repeat (apply Forall2_cons; [|]); try apply Forall2_nil; (split; [reflexivity|]); cbn [fst snd]; intros t z L.
  - apply signed_spec. lia.
  - apply unsigned_spec. lia.
  - apply unsigned_spec. lia.
  - apply unsigned_spec. lia.
  - apply unsigned_spec. lia.
  - apply unsigned_spec. lia.
Qed.
Lemma plus_digit ds : digits (lit "+" ++ ds) -> False.
Proof. intros (_ & D). change (lit "+") with [43%N] in D. inversion D; subst. lia. Qed.
Lemma minus_digit ds : digits (lit "-" ++ ds) -> False.
Proof. intros (_ & D). change (lit "-") with [45%N] in D. inversion D; subst. lia. Qed.
Lemma unsigned_fun t z z' : unsigned t z -> unsigned t z' -> z = z'.
Proof.
  intros (s & ds & E & I & D & ->) (s' & ds' & E' & I' & D' & ->). destruct I as [<-|[<-|[]]], I' as [<-|[<-|[]]].
  - cbn [app] in *. congruence.
  - cbn [app] in E. subst t. rewrite E' in D. destruct (plus_digit _ D).
  - cbn [app] in E'. subst t. rewrite <- E' in D'. destruct (plus_digit _ D').
  - rewrite E in E'. apply app_inv_head in E'. congruence.
Qed.
Lemma pieces_functional : functional pieces.
Proof.
  unfold functional, pieces. repeat (apply Forall_cons; [|]); try apply Forall_nil; cbn [snd]; try exact unsigned_fun.
  intros t z z' [U|(ds & E & D & ->)] [U'|(ds' & E' & D' & ->)].
  - eapply unsigned_fun; eauto.
  - subst t. apply unsigned_head in U. now destruct U.
  - subst t. apply unsigned_head in U'. now destruct U'.
  - rewrite E in E'. apply app_inv_head in E'. congruence.
Qed.
Definition finish (zs : list Z) : res unit N :=
  match zs with
  | [y; m; d; h; mi; s] =>
    let dt := {| dt_year := y; dt_month := m; dt_day := d; dt_hour := h; dt_minute := mi; dt_second := s |} in
    if valid_datetime dt then Ok (u64_of_i64 (timestamp_of dt)) else Panic
  | _ => Err tt
  end.
Lemma date_de_run d : date_de d = bind (run fields d 0) finish.
Proof.
  unfold date_de. cbn [run fields]. cbn [Nat.add].
  destruct (bslice 0 4 d) as [s|]; cbn [unwrap bind]; [|reflexivity]. destruct (parse_i32 s) as [y|]; cbn [ok_or bind]; [|reflexivity].
  destruct (bslice 4 6 d) as [s1|]; cbn [unwrap bind]; [|reflexivity]. destruct (parse_u32 s1) as [m|]; cbn [option_map ok_or bind]; [|reflexivity].
  destruct (bslice 6 8 d) as [s2|]; cbn [unwrap bind]; [|reflexivity]. destruct (parse_u32 s2) as [da|]; cbn [option_map ok_or bind]; [|reflexivity].
  destruct (bslice 8 10 d) as [s3|]; cbn [unwrap bind]; [|reflexivity]. destruct (parse_u32 s3) as [h|]; cbn [option_map ok_or bind]; [|reflexivity].
  destruct (bslice 10 12 d) as [s4|]; cbn [unwrap bind]; [|reflexivity]. destruct (parse_u32 s4) as [mi|]; cbn [option_map ok_or bind]; [|reflexivity].
  destruct (bslice 12 14 d) as [s5|]; cbn [unwrap bind]; [|reflexivity]. destruct (parse_u32 s5) as [sc|]; cbn [option_map ok_or bind]; [|reflexivity].
  reflexivity.
Qed.
Lemma cut_year d zs rest : cut pieces d zs [] rest -> exists y m da h mi s, zs = [y; m; da; h; mi; s] /\ -10000 < y < 10000.
Proof.
  intros C. pose proof (cut_length _ _ _ _ _ C) as L. cbn in L. destruct zs as [|y [|m [|da [|h [|mi [|s [|? ?]]]]]]]; try (cbn in L; lia).
  exists y, m, da, h, mi, s. split; [reflexivity|]. apply cut_cons in C as (n & R & q & p & d' & E & _ & B & H & _). injection E as <- <- <-.
  destruct H as [(sg & ds & -> & _ & D & ->)|(ds & -> & D & ->)]; rewrite blen_app in B; pose proof (decimal_small ds D ltac:(lia)); lia.
Qed.
Lemma valid_second y m d h mi s : -10000 < y < 10000 ->
  let dt := {| dt_year := y; dt_month := m; dt_day := d; dt_hour := h; dt_minute := mi; dt_second := s |} in
  valid_datetime dt = true <-> exists t, second_of [y; m; d; h; mi; s] t.
Proof.
  intros Y dt. unfold valid_datetime, dt. cbn [dt_year dt_month dt_day dt_hour dt_minute dt_second]. rewrite !andb_true_iff, !Z.leb_le, !Z.ltb_lt. unfold MIN_YEAR, MAX_YEAR. split.
  - intros H. eexists. exists y, m, d, h, mi, s, (days_of_ymd y m d). split; [reflexivity|]. split; [apply day_number_spec; split; [tauto|reflexivity]|].
    split; [lia|]. split; [lia|]. split; [lia|reflexivity].
  - intros (t & y' & m' & d' & h' & mi' & s' & n & E & D & H1 & H2 & H3 & _). injection E as <- <- <- <- <- <-. apply day_number_spec in D as [V _].
    repeat split; try lia. assumption.
Qed.
Lemma second_value y m d h mi s t : second_of [y; m; d; h; mi; s] t ->
  t = timestamp_of {| dt_year := y; dt_month := m; dt_day := d; dt_hour := h; dt_minute := mi; dt_second := s |}.
Proof.
  intros (y' & m' & d' & h' & mi' & s' & n & E & D & _ & _ & _ & ->). injection E as <- <- <- <- <- <-. apply day_number_spec in D as [_ ->].
  unfold timestamp_of. cbn [dt_year dt_month dt_day dt_hour dt_minute dt_second]. lia.
Qed.
Lemma date_outcome d : match date_de d with Ok t => date_value d t | Err _ => date_wrong d | Panic => date_crash d end.
Proof.
  rewrite date_de_run. pose proof (run_spec _ _ fields_pieces [] d) as H. cbn [app blen] in H. destruct (run fields d 0) as [zs|e|]; cbn [bind].
  - destruct H as (rest & C). destruct (cut_year _ _ _ C) as (y & m & da & h & mi & s & -> & Y). cbn [finish]. destruct (valid_datetime _) eqn:V.
    + apply valid_second in V as (t & S); [|assumption]. pose proof (second_value _ _ _ _ _ _ _ S) as E. rewrite <- E. exists [y; m; da; h; mi; s], rest, t.
      split; [assumption|]. split; [assumption|]. unfold u64_of_i64. rewrite Z2N.id by (apply Z.mod_pos_bound; lia). reflexivity.
    + right. exists [y; m; da; h; mi; s], rest. split; [assumption|]. intros t S. apply not_true_iff_false in V. apply V. apply valid_second; [assumption|]. eauto.
  - exact H.
  - left. exact H.
Qed.
Lemma date_value_fun d t t' : date_value d t -> date_value d t' -> t = t'.
Proof.
  intros (zs & r & z & C & S & E) (zs' & r' & z' & C' & S' & E'). pose proof (cut_all _ _ _ _ _ _ pieces_functional C C') as <-.
  destruct (cut_year _ _ _ C) as (y & m & da & h & mi & s & -> & _). apply second_value in S. apply second_value in S'. assert (z = z') by congruence. subst z'.
  apply N2Z.inj. congruence.
Qed.
Lemma value_not_wrong d t : date_value d t -> ~ date_wrong d.
Proof.
  intros (zs & r & z & C & _) (zs' & n & R & ps & p & rest & C' & L & H).
  assert (X : (length zs <= length zs')%nat).
  { eapply (cut_stuck _ _ _ _ _ _ _ _ _ _ pieces_functional C' C). intros p' q' z' E L'. apply blen_cut in E as [<- _]; [apply H|congruence]. }
  pose proof (cut_length _ _ _ _ _ C). pose proof (cut_length _ _ _ _ _ C'). cbn [length] in *. lia.
Qed.
Lemma value_not_crash d t : date_value d t -> ~ date_crash d.
Proof.
  intros (zs & r & z & C & S & _) [(zs' & n & R & ps & rest & C' & H)|(zs' & r' & C' & H)].
  - assert (X : (length zs <= length zs')%nat).
    { eapply (cut_stuck _ _ _ _ _ _ _ _ _ _ pieces_functional C' C). intros p' q' z' E L' _. destruct (H _ _ E L'). }
    pose proof (cut_length _ _ _ _ _ C). pose proof (cut_length _ _ _ _ _ C'). cbn [length] in *. lia.
  - pose proof (cut_all _ _ _ _ _ _ pieces_functional C C') as <-. exact (H _ S).
Qed.
Lemma wrong_not_crash d : date_wrong d -> ~ date_crash d.
Proof.
  intros (zs & n & R & ps & p & rest & C & L & H) [(zs' & n' & R' & ps' & rest' & C' & H')|(zs' & r' & C' & _)].
  - destruct (stuck_same _ _ _ _ _ _ _ _ _ _ _ _ pieces_functional C C') as (_ & E1 & E2).
    + intros p' q' z' E L'. apply blen_cut in E as [<- _]; [apply H|congruence].
    + intros p' q' z' E L' _. destruct (H' _ _ E L').
    + subst n' rest'. exact (H' _ _ eq_refl L).
  - assert (X : (length zs' <= length zs)%nat).
    { eapply (cut_stuck _ _ _ _ _ _ _ _ _ _ pieces_functional C C'). intros p' q' z' E L'. apply blen_cut in E as [<- _]; [apply H|congruence]. }
    pose proof (cut_length _ _ _ _ _ C). pose proof (cut_length _ _ _ _ _ C'). cbn [length] in *. lia.
Qed.
Theorem date_de_ok d t : date_de d = Ok t <-> date_value d t.
Proof.
  pose proof (date_outcome d) as H. split; [intros E; now rewrite E in H|]. intros V. destruct (date_de d) as [t'|e|].
  - f_equal. eapply date_value_fun; eauto.
  - destruct (value_not_wrong _ _ V H).
  - destruct (value_not_crash _ _ V H).
Qed.
Theorem date_de_panic d : date_de d = Panic <-> date_crash d.
Proof.
  pose proof (date_outcome d) as H. split; [intros E; now rewrite E in H|]. intros V. destruct (date_de d) as [t'|e|]; [|exfalso; now apply (wrong_not_crash d)|reflexivity].
  destruct (value_not_crash _ _ H V).
Qed.
Theorem date_de_err d : date_de d = Err tt <-> date_wrong d.
Proof.
  pose proof (date_outcome d) as H. split; [intros E; now rewrite E in H|]. intros V. destruct (date_de d) as [t'|[]|]; [|reflexivity|destruct (wrong_not_crash d V H)].
  destruct (value_not_wrong _ _ H V).
Qed.
