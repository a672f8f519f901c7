(** The calendar model is the Gregorian calendar and its two directions are inverse. *)
From Verif Require Import Base M_Date.
Local Open Scope Z_scope.

(** binary recursion, so that sweeps do not build unary numbers *)
Fixpoint sweep (fuel : nat) (lo len : Z) (P : Z -> bool) : bool :=
  if len <=? 0 then true
  else if len =? 1 then P lo
  else match fuel with
       | O => false
       | S f => let h := len / 2 in sweep f lo h P && sweep f (lo + h) (len - h) P
       end.
Lemma sweep_ok fuel lo len P : sweep fuel lo len P = true -> forall x, lo <= x < lo + len -> P x = true.
Proof.
  revert lo len; induction fuel as [|f IH]; intros lo len; cbn [sweep];
    destruct (Z.leb_spec len 0); intros H0 x Hx; try lia;
    destruct (Z.eqb_spec len 1) as [->|]; try (replace x with lo by lia; auto; fail); try discriminate.
  apply andb_prop in H0 as [H1 H2]. destruct (Z.lt_ge_cases x (lo + len / 2)).
  - apply (IH lo (len / 2)); auto. lia.
  - apply (IH (lo + len / 2) (len - len / 2)); auto. lia.
Qed.
(** a year and its position in the cycle have the same leap days *)
Lemma leap_shift y k : leap (y + 400 * k) = leap y.
Proof.
  unfold leap.
  replace ((y + 400 * k) mod 4) with (y mod 4) by (replace (y + 400 * k) with (y + (100 * k) * 4) by lia; now rewrite Z.mod_add).
  replace ((y + 400 * k) mod 100) with (y mod 100) by (replace (y + 400 * k) with (y + (4 * k) * 100) by lia; now rewrite Z.mod_add).
  replace ((y + 400 * k) mod 400) with (y mod 400) by (replace (y + 400 * k) with (y + k * 400) by lia; now rewrite Z.mod_add).
  reflexivity.
Qed.
Lemma dim_shift y k m : days_in_month (y + 400 * k) m = days_in_month y m.
Proof. unfold days_in_month. now rewrite leap_shift. Qed.
Lemma valid_shift y k m d : valid_ymd (y + 400 * k) m d = valid_ymd y m d.
Proof. unfold valid_ymd. now rewrite dim_shift. Qed.
Definition cyc_year (yoe m : Z) : Z := if m <=? 2 then yoe + 1 else yoe.
Definition cycle_ok (doe : Z) : bool :=
  let '(yoe, m, d) := ymd_of_cycle doe in
  (0 <=? yoe) && (yoe <? 400) && valid_ymd (cyc_year yoe m) m d && (day_of_cycle yoe m d =? doe).
(** first day of a year (from March) in the cycle, and of the one after *)
Definition ys (yoe : Z) : Z := if yoe =? 400 then 146097 else 365 * yoe + yoe / 4 - yoe / 100.
Definition g (doe : Z) : Z := doe - doe / 1460 + doe / 36524 - doe / 146096.
Lemma g_mono a b : 0 <= a <= b -> b < 146097 -> g a <= g b.
Proof.
  intros H L. unfold g. pose proof (Z.div_mod a 1460 ltac:(lia)). pose proof (Z.div_mod b 1460 ltac:(lia)).
  pose proof (Z.mod_pos_bound a 1460 ltac:(lia)). pose proof (Z.mod_pos_bound b 1460 ltac:(lia)).
  pose proof (Z.div_le_mono a b 36524 ltac:(lia) ltac:(lia)).
  destruct (Z.eq_dec b 146096) as [->|Hb].
  - change (146096 / 1460) with 100 in *. change (146096 / 36524) with 4. change (146096 / 146096) with 1.
    destruct (Z.eq_dec a 146096) as [->|Ha]; [now compute|].
    rewrite (Z.div_small a 146096) by lia.
    assert (a / 36524 <= 3) by (assert (a / 36524 < 4) by (apply Z.div_lt_upper_bound; lia); lia). lia.
  - rewrite (Z.div_small a 146096), (Z.div_small b 146096) by lia. lia.
Qed.
(** per year: both ends are assigned to it, and it has 366 days iff its February is that of a leap year *)
Definition year_ok (yoe : Z) : bool :=
  (g (ys yoe) / 365 =? yoe) && (g (ys (yoe + 1) - 1) / 365 =? yoe) && (0 <=? ys yoe) && (ys (yoe + 1) <=? 146097) &&
  (ys (yoe + 1) =? ys yoe + (if leap (yoe + 1) then 366 else 365)).
Lemma year_all yoe : 0 <= yoe < 400 -> year_ok yoe = true.
Proof. assert (G : sweep 10 0 400 year_ok = true) by (vm_cast_no_check (eq_refl true)). apply (sweep_ok _ _ _ _ G). Qed.
Lemma year_of doe yoe : 0 <= yoe < 400 -> ys yoe <= doe < ys (yoe + 1) -> g doe / 365 = yoe.
Proof.
  intros Hy H. pose proof (year_all _ Hy) as Y. unfold year_ok in Y. rewrite !andb_true_iff, !Z.eqb_eq, !Z.leb_le in Y.
  destruct Y as ((((Y1 & Y2) & Y3) & Y4) & Y5).
  assert (A : g (ys yoe) <= g doe) by (apply g_mono; lia). assert (B : g doe <= g (ys (yoe + 1) - 1)) by (apply g_mono; lia).
  apply (Z.div_le_mono _ _ 365) in A, B; lia.
Qed.
Lemma year_ex doe : 0 <= doe < 146097 -> exists yoe, 0 <= yoe < 400 /\ ys yoe <= doe < ys (yoe + 1).
Proof.
  intros H. assert (K : forall n, doe < ys (Z.of_nat n) -> exists yoe, 0 <= yoe < Z.of_nat n /\ ys yoe <= doe < ys (yoe + 1)).
  { induction n as [|n IH]; intros L; [change (ys (Z.of_nat 0)) with 0 in L; lia|].
    destruct (Z.lt_ge_cases doe (ys (Z.of_nat n))) as [H2|H2].
    - destruct (IH H2) as (y & Hy & B). exists y. split; [lia|auto].
    - exists (Z.of_nat n). rewrite Nat2Z.inj_succ in L. unfold Z.succ in L. split; [lia|auto]. }
  apply (K 400%nat). change (doe < 146097). lia.
Qed.
(** months: [lp] tells whether the February of this (March) year has 29 days *)
Definition dimf (lp : bool) (m : Z) : Z :=
  if m =? 2 then (if lp then 29 else 28) else if (m =? 4) || (m =? 6) || (m =? 9) || (m =? 11) then 30 else 31.
Lemma dim_cyc yoe m : days_in_month (cyc_year yoe m) m = dimf (leap (yoe + 1)) m.
Proof. unfold days_in_month, cyc_year, dimf. destruct (Z.eqb_spec m 2) as [->|]; reflexivity. Qed.
Definition mpart (m : Z) : Z := (153 * (if 2 <? m then m - 3 else m + 9) + 2) / 5.
Definition md_of (doy : Z) : Z * Z :=
  let mp := (5 * doy + 2) / 153 in (if mp <? 10 then mp + 3 else mp - 9, doy - (153 * mp + 2) / 5 + 1).
Definition doy_ok (lp : bool) (doy : Z) : bool :=
  let '(m, d) := md_of doy in
  (1 <=? m) && (m <=? 12) && (1 <=? d) && (d <=? dimf lp m) && (mpart m + d - 1 =? doy).
Lemma doy_all (lp : bool) doy : 0 <= doy < (if lp then 366 else 365) -> doy_ok lp doy = true.
Proof.
  assert (G : sweep 10 0 366 (doy_ok true) = true) by (vm_cast_no_check (eq_refl true)).
  assert (G2 : sweep 10 0 365 (doy_ok false) = true) by (vm_cast_no_check (eq_refl true)).
  destruct lp; [apply (sweep_ok _ _ _ _ G)|apply (sweep_ok _ _ _ _ G2)].
Qed.
Definition md_ok (lp : bool) (m : Z) : bool := sweep 6 1 (dimf lp m) (fun d =>
  let doy := mpart m + d - 1 in (0 <=? doy) && (doy <? if lp then 366 else 365) &&
  let '(a, b) := md_of doy in (a =? m) && (b =? d)).
Lemma md_all (lp : bool) m d : 1 <= m <= 12 -> 1 <= d <= dimf lp m ->
  0 <= mpart m + d - 1 < (if lp then 366 else 365) /\ md_of (mpart m + d - 1) = (m, d).
Proof.
  intros Hm Hd. assert (G : sweep 5 1 12 (md_ok true) = true) by (vm_cast_no_check (eq_refl true)).
  assert (G2 : sweep 5 1 12 (md_ok false) = true) by (vm_cast_no_check (eq_refl true)).
  assert (K : md_ok lp m = true) by (destruct lp; [apply (sweep_ok _ _ _ _ G)|apply (sweep_ok _ _ _ _ G2)]; lia).
  unfold md_ok in K. pose proof (sweep_ok _ _ _ _ K d ltac:(lia)) as K2. cbv beta zeta in K2.
  destruct (md_of (mpart m + d - 1)) as [a b]. rewrite !andb_true_iff, !Z.eqb_eq, Z.leb_le, Z.ltb_lt in K2.
  destruct K2 as ((? & ?) & ? & ?). subst. split; auto.
Qed.
Lemma ymd_of_cycle_eq yoe doy : 0 <= yoe < 400 -> 0 <= doy < (if leap (yoe + 1) then 366 else 365) ->
  ymd_of_cycle (ys yoe + doy) = (yoe, fst (md_of doy), snd (md_of doy)).
Proof.
  intros Hy Hd. pose proof (year_all _ Hy) as Y. unfold year_ok in Y. rewrite !andb_true_iff, !Z.eqb_eq, !Z.leb_le in Y.
  destruct Y as ((((Y1 & Y2) & Y3) & Y4) & Y5).
  assert (E : g (ys yoe + doy) / 365 = yoe) by (apply year_of; auto; destruct (leap (yoe + 1)); lia).
  unfold ymd_of_cycle. fold (g (ys yoe + doy)). rewrite E.
  assert (E2 : ys yoe + doy - (365 * yoe + yoe / 4 - yoe / 100) = doy).
  { unfold ys. replace (yoe =? 400) with false by (symmetry; apply Z.eqb_neq; lia). lia. }
  rewrite E2. reflexivity.
Qed.
Lemma day_of_cycle_eq yoe m d : 0 <= yoe < 400 -> day_of_cycle yoe m d = ys yoe + (mpart m + d - 1).
Proof.
  intros H. unfold day_of_cycle, ys, mpart. replace (yoe =? 400) with false by (symmetry; apply Z.eqb_neq; lia). lia.
Qed.
Lemma cycle_all doe : 0 <= doe < 146097 -> cycle_ok doe = true.
Proof.
  intros H. destruct (year_ex _ H) as (yoe & Hy & B). pose proof (year_all _ Hy) as Y. unfold year_ok in Y.
  rewrite !andb_true_iff, !Z.eqb_eq, !Z.leb_le in Y. destruct Y as (_ & Y5).
  assert (D : 0 <= doe - ys yoe < if leap (yoe + 1) then 366 else 365) by (destruct (leap (yoe + 1)); lia).
  pose proof (doy_all _ _ D) as K. unfold cycle_ok. replace doe with (ys yoe + (doe - ys yoe)) by lia.
  rewrite ymd_of_cycle_eq by auto. unfold doy_ok in K. destruct (md_of (doe - ys yoe)) as [m d]. cbn [fst snd].
  rewrite !andb_true_iff, Z.eqb_eq in K. destruct K as ((((K1 & K2) & K3) & K4) & K5).
  unfold valid_ymd. rewrite dim_cyc, K1, K2, K3, K4. rewrite day_of_cycle_eq by auto. rewrite K5, Z.eqb_refl.
  replace (0 <=? yoe) with true by (symmetry; apply Z.leb_le; lia). replace (yoe <? 400) with true by (symmetry; apply Z.ltb_lt; lia). reflexivity.
Qed.
Lemma valid_ranges y m d : valid_ymd y m d = true -> 1 <= m <= 12 /\ 1 <= d <= days_in_month y m.
Proof. unfold valid_ymd. rewrite !andb_true_iff, !Z.leb_le. lia. Qed.
Lemma ymd_all yoe m d : 0 <= yoe < 400 -> valid_ymd (cyc_year yoe m) m d = true ->
  0 <= day_of_cycle yoe m d < 146097 /\ ymd_of_cycle (day_of_cycle yoe m d) = (yoe, m, d).
Proof.
  intros Hy Hv. apply valid_ranges in Hv as [Hm Hd]. rewrite dim_cyc in Hd.
  destruct (md_all _ _ _ Hm Hd) as [B E]. rewrite day_of_cycle_eq by auto. rewrite ymd_of_cycle_eq, E by auto.
  pose proof (year_all _ Hy) as Y. unfold year_ok in Y. rewrite !andb_true_iff, !Z.eqb_eq, !Z.leb_le in Y.
  split; [destruct (leap (yoe + 1)); lia|reflexivity].
Qed.
Lemma ymd_of_days_valid n : let '(y, m, d) := ymd_of_days n in valid_ymd y m d = true /\ days_of_ymd y m d = n.
Proof.
  unfold ymd_of_days. set (z := n + 719468).
  assert (R : 0 <= z mod 146097 < 146097) by (apply Z.mod_pos_bound; lia).
  pose proof (cycle_all _ R) as C. unfold cycle_ok in C. destruct (ymd_of_cycle (z mod 146097)) as [[yoe m] d].
  rewrite !andb_true_iff in C. destruct C as [[[C1 C2] C3] C4]. apply Z.leb_le in C1. apply Z.ltb_lt in C2. apply Z.eqb_eq in C4.
  assert (E : (if m <=? 2 then yoe + z / 146097 * 400 + 1 else yoe + z / 146097 * 400) = cyc_year yoe m + 400 * (z / 146097)).
  { unfold cyc_year. destruct (m <=? 2); lia. }
  rewrite E. split; [now rewrite valid_shift|]. unfold days_of_ymd.
  assert (E2 : (if m <=? 2 then cyc_year yoe m + 400 * (z / 146097) - 1 else cyc_year yoe m + 400 * (z / 146097)) = yoe + z / 146097 * 400).
  { unfold cyc_year. destruct (m <=? 2); lia. }
  rewrite E2, Z.mod_add, Z.div_add, Z.mod_small, Z.div_small by lia. rewrite C4.
  pose proof (Z.div_mod z 146097). unfold z in *. lia.
Qed.
Lemma ymd_of_days_of y m d : valid_ymd y m d = true -> ymd_of_days (days_of_ymd y m d) = (y, m, d).
Proof.
  intros H. unfold days_of_ymd. set (y' := if m <=? 2 then y - 1 else y).
  assert (R : 0 <= y' mod 400 < 400) by (apply Z.mod_pos_bound; lia).
  assert (E : y = cyc_year (y' mod 400) m + 400 * (y' / 400)).
  { unfold cyc_year, y' in *. pose proof (Z.div_mod (y - 1) 400). pose proof (Z.div_mod y 400). destruct (m <=? 2); lia. }
  assert (V : valid_ymd (cyc_year (y' mod 400) m) m d = true) by (rewrite <- (valid_shift _ (y' / 400)), <- E; auto).
  destruct (ymd_all _ _ _ R V) as [B C]. unfold ymd_of_days.
  replace (y' / 400 * 146097 + day_of_cycle (y' mod 400) m d - 719468 + 719468) with (day_of_cycle (y' mod 400) m d + y' / 400 * 146097) by lia.
  rewrite Z.mod_add, Z.div_add, Z.mod_small, Z.div_small by lia. rewrite C.
  assert (E3 : (if m <=? 2 then y' mod 400 + (0 + y' / 400) * 400 + 1 else y' mod 400 + (0 + y' / 400) * 400) = y).
  { rewrite E. unfold cyc_year. destruct (m <=? 2); lia. }
  now rewrite E3.
Qed.
(** the model counts days: the next calendar day is the next number; 1970-01-01 is day 0 *)
Lemma days_epoch : days_of_ymd 1970 1 1 = 0. Proof. reflexivity. Qed.
(** last days of months *)
Definition succ_ok (yoe : Z) : bool :=
  sweep 5 1 12 (fun m => let d := days_in_month (cyc_year yoe m) m in
    let '(a, b, c) := next_day (cyc_year yoe m) m d in days_of_ymd a b c =? days_of_ymd (cyc_year yoe m) m d + 1).
Lemma days_linear y m d : days_of_ymd y m (d + 1) = days_of_ymd y m d + 1.
Proof. unfold days_of_ymd, day_of_cycle. lia. Qed.
Lemma days_shift y k m d : days_of_ymd (y + 400 * k) m d = days_of_ymd y m d + k * 146097.
Proof.
  unfold days_of_ymd. replace (if m <=? 2 then y + 400 * k - 1 else y + 400 * k) with ((if m <=? 2 then y - 1 else y) + k * 400)
    by (destruct (m <=? 2); lia).
  rewrite Z.mod_add, Z.div_add by lia. lia.
Qed.
Lemma next_shift y k m d : next_day (y + 400 * k) m d = let '(a, b, c) := next_day y m d in (a + 400 * k, b, c).
Proof.
  unfold next_day. rewrite dim_shift. destruct (d <? days_in_month y m); auto. destruct (m <? 12); auto. do 2 f_equal. lia.
Qed.
Lemma next_day_succ y m d : valid_ymd y m d = true ->
  let '(a, b, c) := next_day y m d in valid_ymd a b c = true /\ days_of_ymd a b c = days_of_ymd y m d + 1.
Proof.
  intros H. set (y' := if m <=? 2 then y - 1 else y).
  assert (R : 0 <= y' mod 400 < 400) by (apply Z.mod_pos_bound; lia).
  assert (E : y = cyc_year (y' mod 400) m + 400 * (y' / 400)).
  { unfold cyc_year, y' in *. pose proof (Z.div_mod (y - 1) 400). pose proof (Z.div_mod y 400). destruct (m <=? 2); lia. }
  assert (V : valid_ymd (cyc_year (y' mod 400) m) m d = true) by (rewrite <- (valid_shift _ (y' / 400)), <- E; auto).
  assert (G3 : let '(a, b, c) := next_day (cyc_year (y' mod 400) m) m d in
            days_of_ymd a b c = days_of_ymd (cyc_year (y' mod 400) m) m d + 1).
  { destruct (valid_ranges _ _ _ V) as [Hm Hd].
    destruct (Z.ltb_spec d (days_in_month (cyc_year (y' mod 400) m) m)) as [L|L].
    - unfold next_day. replace (d <? days_in_month (cyc_year (y' mod 400) m) m) with true by (symmetry; now apply Z.ltb_lt). apply days_linear.
    - assert (G : sweep 10 0 400 succ_ok = true) by (vm_cast_no_check (eq_refl true)).
      pose proof (sweep_ok _ _ _ _ G _ R) as G1. unfold succ_ok in G1.
      pose proof (sweep_ok _ _ _ _ G1 m ltac:(lia)) as G2. cbv beta zeta in G2.
      replace d with (days_in_month (cyc_year (y' mod 400) m) m) by lia.
      destruct (next_day (cyc_year (y' mod 400) m) m (days_in_month (cyc_year (y' mod 400) m) m)) as [[a b] c]. now apply Z.eqb_eq. }
  assert (EN : next_day y m d = let '(a, b, c) := next_day (cyc_year (y' mod 400) m) m d in (a + 400 * (y' / 400), b, c)).
  { transitivity (next_day (cyc_year (y' mod 400) m + 400 * (y' / 400)) m d); [f_equal; exact E|apply next_shift]. }
  assert (ED : days_of_ymd y m d = days_of_ymd (cyc_year (y' mod 400) m) m d + y' / 400 * 146097).
  { transitivity (days_of_ymd (cyc_year (y' mod 400) m + 400 * (y' / 400)) m d); [f_equal; exact E|apply days_shift]. }
  rewrite EN, ED.
  assert (VN : let '(a, b, c) := next_day (cyc_year (y' mod 400) m) m d in valid_ymd a b c = true).
  { destruct (valid_ranges _ _ _ V) as [Hm Hd]. unfold next_day. destruct (Z.ltb_spec d (days_in_month (cyc_year (y' mod 400) m) m)).
    - unfold valid_ymd. rewrite !andb_true_iff, !Z.leb_le. lia.
    - destruct (Z.ltb_spec m 12).
      + unfold valid_ymd. rewrite !andb_true_iff, !Z.leb_le. unfold days_in_month.
        destruct (m + 1 =? 2), (leap (cyc_year (y' mod 400) m)), ((m + 1 =? 4) || (m + 1 =? 6) || (m + 1 =? 9) || (m + 1 =? 11)); lia.
      + reflexivity. }
  destruct (next_day (cyc_year (y' mod 400) m) m d) as [[a b] c]. split; [now rewrite valid_shift|].
  rewrite days_shift. lia.
Qed.
(** timestamps *)
Lemma timestamp_rt t dt : datetime_of_timestamp t = Some dt -> timestamp_of dt = t /\ valid_datetime dt = true.
Proof.
  unfold datetime_of_timestamp. pose proof (ymd_of_days_valid (t / 86400)) as V.
  destruct (ymd_of_days (t / 86400)) as [[y m] d]. destruct V as [V E].
  destruct ((MIN_YEAR <=? y) && (y <=? MAX_YEAR)) eqn:Ey; [|discriminate]. intros [= <-].
  assert (R : 0 <= t mod 86400 < 86400) by (apply Z.mod_pos_bound; lia). pose proof (Z.div_mod t 86400 ltac:(lia)) as T.
  set (s := t mod 86400) in *. split.
  - unfold timestamp_of. cbn [dt_year dt_month dt_day dt_hour dt_minute dt_second]. rewrite E.
    pose proof (Z.div_mod s 3600 ltac:(lia)). pose proof (Z.div_mod s 60 ltac:(lia)). pose proof (Z.div_mod (s / 60) 60 ltac:(lia)).
    assert (s / 60 / 60 = s / 3600) by (rewrite Z.div_div by lia; reflexivity). lia.
  - unfold valid_datetime. cbn [dt_year dt_month dt_day dt_hour dt_minute dt_second]. rewrite V, Ey. cbn [andb].
    assert (0 <= s / 3600 < 24) by (split; [apply Z.div_pos; lia|apply Z.div_lt_upper_bound; lia]).
    pose proof (Z.mod_pos_bound (s / 60) 60 ltac:(lia)). pose proof (Z.mod_pos_bound s 60 ltac:(lia)).
    rewrite !andb_true_iff, !Z.leb_le, !Z.ltb_lt. lia.
Qed.
Lemma datetime_rt dt : valid_datetime dt = true -> datetime_of_timestamp (timestamp_of dt) = Some dt.
Proof.
  unfold valid_datetime. rewrite !andb_true_iff, !Z.leb_le, !Z.ltb_lt. intros ((((((((Y1 & Y2) & V) & H1) & H2) & M1) & M2) & S1) & S2).
  unfold datetime_of_timestamp, timestamp_of. set (n := days_of_ymd _ _ _). set (s := dt_hour dt * 3600 + dt_minute dt * 60 + dt_second dt).
  replace (n * 86400 + dt_hour dt * 3600 + dt_minute dt * 60 + dt_second dt) with (s + n * 86400) by (unfold s; lia).
  assert (0 <= s < 86400) by (unfold s; lia).
  rewrite Z.div_add, Z.mod_add, Z.div_small, Z.mod_small, Z.add_0_l by lia. unfold n. rewrite ymd_of_days_of by auto.
  replace (MIN_YEAR <=? dt_year dt) with true by (symmetry; now apply Z.leb_le).
  replace (dt_year dt <=? MAX_YEAR) with true by (symmetry; now apply Z.leb_le). cbn [andb].
  assert (E1 : s / 3600 = dt_hour dt) by (symmetry; apply (Z.div_unique _ _ _ (dt_minute dt * 60 + dt_second dt)); unfold s; lia).
  assert (E2 : s / 60 = dt_hour dt * 60 + dt_minute dt) by (symmetry; apply (Z.div_unique _ _ _ (dt_second dt)); unfold s; lia).
  assert (E3 : s mod 60 = dt_second dt) by (symmetry; apply (Z.mod_unique _ _ (dt_hour dt * 60 + dt_minute dt)); unfold s; lia).
  rewrite E1, E2, E3. replace ((dt_hour dt * 60 + dt_minute dt) mod 60) with (dt_minute dt); [now destruct dt|].
  apply (Z.mod_unique _ _ (dt_hour dt)); lia.
Qed.
