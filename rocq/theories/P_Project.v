(** Properties C25 and C26 (project.rs and its adapters). *)
From Verif Require Import Base Str Spec Dec Flt Json JsonProofs Recs RecsProofs M_Color M_Date DateProofs M_Project ProjectProofs SpecDate DateTextProofs DateBackProofs.

(** The clock of [datetime_of_timestamp], independently: 0 is 1970-01-01 00:00:00, and one second more
    is the next second on the Gregorian calendar. *)
Definition next_second (dt : datetime) : datetime :=
  (if dt_second dt <? 59 then {| dt_year := dt_year dt; dt_month := dt_month dt; dt_day := dt_day dt; dt_hour := dt_hour dt;
                                 dt_minute := dt_minute dt; dt_second := dt_second dt + 1 |}
   else if dt_minute dt <? 59 then {| dt_year := dt_year dt; dt_month := dt_month dt; dt_day := dt_day dt; dt_hour := dt_hour dt;
                                      dt_minute := dt_minute dt + 1; dt_second := 0 |}
   else if dt_hour dt <? 23 then {| dt_year := dt_year dt; dt_month := dt_month dt; dt_day := dt_day dt; dt_hour := dt_hour dt + 1;
                                    dt_minute := 0; dt_second := 0 |}
   else let '(y, m, d) := next_day (dt_year dt) (dt_month dt) (dt_day dt) in
        {| dt_year := y; dt_month := m; dt_day := d; dt_hour := 0; dt_minute := 0; dt_second := 0 |})%Z.
Theorem C25_calendar :
  datetime_of_timestamp 0 =
    Some {| dt_year := 1970; dt_month := 1; dt_day := 1; dt_hour := 0; dt_minute := 0; dt_second := 0 |} /\
  forall t dt, datetime_of_timestamp t = Some dt -> (dt_year (next_second dt) <= MAX_YEAR)%Z ->
    datetime_of_timestamp (t + 1) = Some (next_second dt).
Proof.
  split; [reflexivity|]. intros t dt H Hy. destruct (timestamp_rt _ _ H) as [Ht V]. subst t. clear H.
  assert (K : valid_datetime (next_second dt) = true /\ timestamp_of (next_second dt) = (timestamp_of dt + 1)%Z).
  { unfold valid_datetime in V. rewrite !andb_true_iff, !Z.leb_le, !Z.ltb_lt in V. destruct V as ((((((((Y1 & Y2) & V) & H1) & H2) & M1) & M2) & S1) & S2).
    assert (W : forall y m d h mi s, (MIN_YEAR <= y <= MAX_YEAR)%Z -> valid_ymd y m d = true -> (0 <= h < 24)%Z -> (0 <= mi < 60)%Z -> (0 <= s < 60)%Z ->
      valid_datetime {| dt_year := y; dt_month := m; dt_day := d; dt_hour := h; dt_minute := mi; dt_second := s |} = true).
    { intros. unfold valid_datetime. cbn [dt_year dt_month dt_day dt_hour dt_minute dt_second]. rewrite !andb_true_iff, !Z.leb_le, !Z.ltb_lt. tauto. }
    unfold next_second in *. destruct (Z.ltb_spec (dt_second dt) 59); [split; [apply W; auto; lia|unfold timestamp_of; cbn; lia]|].
    destruct (Z.ltb_spec (dt_minute dt) 59); [split; [apply W; auto; lia|unfold timestamp_of; cbn; lia]|].
    destruct (Z.ltb_spec (dt_hour dt) 23); [split; [apply W; auto; lia|unfold timestamp_of; cbn; lia]|].
    pose proof (next_day_succ _ _ _ V) as N. destruct (next_day (dt_year dt) (dt_month dt) (dt_day dt)) as [[y m] d] eqn:En. destruct N as [N1 N2].
    assert (dt_year dt <= y)%Z.
    { unfold next_day in En. destruct (dt_day dt <? days_in_month (dt_year dt) (dt_month dt))%Z; [injection En; lia|].
      destruct (dt_month dt <? 12)%Z; injection En; lia. }
    split; [apply W; auto; cbn in Hy; lia|]. unfold timestamp_of. cbn [dt_year dt_month dt_day dt_hour dt_minute dt_second]. lia. }
  destruct K as [K1 K2]. rewrite <- K2. now apply datetime_rt.
Qed.
Print Assumptions C25_calendar.
(** the same against the calendar of SpecDate.v: the fields are those of second [t] counted from 1970 *)
Theorem C25_seconds t dt : datetime_of_timestamp t = Some dt <->
  second_of [dt_year dt; dt_month dt; dt_day dt; dt_hour dt; dt_minute dt; dt_second dt] t /\ (MIN_YEAR <= dt_year dt <= MAX_YEAR)%Z.
Proof.
  split.
  - intros H. destruct (timestamp_rt _ _ H) as [<- V]. unfold valid_datetime in V. rewrite !andb_true_iff, !Z.leb_le, !Z.ltb_lt in V. split; [|lia].
    exists (dt_year dt), (dt_month dt), (dt_day dt), (dt_hour dt), (dt_minute dt), (dt_second dt), (days_of_ymd (dt_year dt) (dt_month dt) (dt_day dt)).
    split; [reflexivity|]. split; [apply day_number_spec; split; [tauto|reflexivity]|]. repeat split; try lia. unfold timestamp_of. lia.
  - intros [S Y]. pose proof (second_value _ _ _ _ _ _ _ S) as ->. destruct S as (y & m & d & h & mi & s & n & E & D & H1 & H2 & H3 & _).
    injection E as <- <- <- <- <- <-. apply day_number_spec in D as [V _]. replace {| dt_year := _ |} with dt by (destruct dt; reflexivity).
    apply datetime_rt. unfold valid_datetime. rewrite !andb_true_iff, !Z.leb_le, !Z.ltb_lt. tauto.
Qed.
Print Assumptions C25_seconds.

(** C25: every field of the date at least 10 (two digits), or not. The full claim has no condition on
    the five fields; it fails for every other second of those years: the loader panics. *)
Definition two_digits (dt : datetime) : Prop :=
  (10 <= dt_month dt /\ 10 <= dt_day dt /\ 10 <= dt_hour dt /\ 10 <= dt_minute dt /\ 10 <= dt_second dt)%Z.
Definition in_range (p : project) : Prop :=
  pj_id p < 2 ^ 16 /\ pj_version_code p < 2 ^ 16 /\ pj_sketchware_version p < 2 ^ 8 /\ pj_date_created p < 2 ^ 64 /\
  cval (pal_primary (pj_palette p)) < 2 ^ 32 /\ cval (pal_primary_dark (pj_palette p)) < 2 ^ 32 /\
  cval (pal_accent (pj_palette p)) < 2 ^ 32 /\ cval (pal_control_normal (pj_palette p)) < 2 ^ 32 /\
  cval (pal_control_highlight (pj_palette p)) < 2 ^ 32.
Lemma project_ser_de p dt : in_range p -> datetime_of_timestamp (i64_of_u64 (pj_date_created p)) = Some dt ->
  (1000 <= dt_year dt <= 9999)%Z ->
  exists s, project_reconstruct p = Ok s /\ project_parse s = if wide dt then Ok p else Panic.
Proof.
  intros (R1 & R2 & R3 & R4 & C) Hd Y. assert (OK : project_ok p).
  { unfold project_ok. change 65536 with (2 ^ 16). change 256 with (2 ^ 8). change 4294967296 with (2 ^ 32).
    repeat (split; auto). repeat (constructor; [tauto|]). constructor. }
  destruct (timestamp_rt _ _ Hd) as [Ht V].
  unfold project_reconstruct, date_ser. rewrite Hd. cbn [bind]. eexists. split; [reflexivity|].
  unfold project_parse. rewrite parse_print by apply e_project_wf. cbn [ok_or bind]. rewrite d_project_e by auto.
  destruct (wide dt) eqn:W.
  - rewrite date_de_wide by auto. rewrite Ht, u64_i64 by (apply R4). now destruct p.
  - now rewrite date_de_narrow by auto.
Qed.
Lemma wide_two dt : wide dt = true <-> two_digits dt.
Proof. unfold wide, two_digits. rewrite !andb_true_iff, !Z.leb_le. tauto. Qed.
Theorem C25_date_partial p dt : in_range p -> datetime_of_timestamp (i64_of_u64 (pj_date_created p)) = Some dt ->
  (1000 <= dt_year dt <= 9999)%Z -> two_digits dt ->
  exists s q, project_reconstruct p = Ok s /\ project_parse s = Ok q /\ pj_date_created q = pj_date_created p.
Proof.
  intros R H Y T. destruct (project_ser_de p dt R H Y) as (s & E1 & E2). apply wide_two in T. rewrite T in E2. eauto.
Qed.
Print Assumptions C25_date_partial.
Theorem C25_refuted p dt : in_range p -> datetime_of_timestamp (i64_of_u64 (pj_date_created p)) = Some dt ->
  (1000 <= dt_year dt <= 9999)%Z -> ~ two_digits dt ->
  exists s, project_reconstruct p = Ok s /\ project_parse s = Panic.
Proof.
  intros R H Y T. destruct (project_ser_de p dt R H Y) as (s & E1 & E2). rewrite <- wide_two in T. apply not_true_is_false in T.
  rewrite T in E2. eauto.
Qed.
Print Assumptions C25_refuted.

(** C26: same condition, whole project *)
Theorem C26_roundtrip_partial p dt : in_range p -> datetime_of_timestamp (i64_of_u64 (pj_date_created p)) = Some dt ->
  (1000 <= dt_year dt <= 9999)%Z -> two_digits dt ->
  exists s, project_reconstruct p = Ok s /\ project_parse s = Ok p.
Proof.
  intros R H Y T. destruct (project_ser_de p dt R H Y) as (s & E1 & E2). apply wide_two in T. rewrite T in E2. eauto.
Qed.
Print Assumptions C26_roundtrip_partial.
(** whatever the date, everything else written survives: only the date text decides *)
Theorem C26_other_fields p s q : in_range p -> project_reconstruct p = Ok s -> project_parse s = Ok q ->
  pj_id q = pj_id p /\ pj_app_name q = pj_app_name p /\ pj_workspace_name q = pj_workspace_name p /\
  pj_package_name q = pj_package_name p /\ pj_version_code q = pj_version_code p /\ pj_version_name q = pj_version_name p /\
  pj_custom_icon q = pj_custom_icon p /\ pj_palette q = pj_palette p /\ pj_sketchware_version q = pj_sketchware_version p.
Proof.
  intros (R1 & R2 & R3 & R4 & C) H G. assert (OK : project_ok p).
  { unfold project_ok. change 65536 with (2 ^ 16). change 256 with (2 ^ 8). change 4294967296 with (2 ^ 32).
    repeat (split; auto). repeat (constructor; [tauto|]). constructor. }
  unfold project_reconstruct in H. destruct (date_ser (pj_date_created p)) as [d| |]; try discriminate. cbn [bind] in H. assert (Hs : s = print_json (e_project p d)) by congruence. subst s. clear H.
  unfold project_parse in G. rewrite parse_print in G by apply e_project_wf. cbn [ok_or bind] in G. rewrite d_project_e in G by auto.
  destruct (date_de d) as [t| |]; try discriminate. cbn [bind] in G. match type of G with Ok ?r = _ => assert (Hq : q = r) by congruence end. subst q. cbn. tauto.
Qed.
Print Assumptions C26_other_fields.
Theorem C26_refuted : exists p, in_range p /\
  exists s, project_reconstruct p = Ok s /\ project_parse s = Panic.
Proof.
  exists {| pj_id := 601; pj_app_name := lit "App"; pj_workspace_name := lit "ws"; pj_package_name := lit "a.b"; pj_version_code := 1;
            pj_version_name := lit "1.0"; pj_date_created := 1636974000; pj_custom_icon := false; pj_palette := palette_default;
            pj_sketchware_version := 150 |}.
  split; [vm_compute; tauto|]. eexists. split; [vm_compute; reflexivity|vm_compute; reflexivity].
Qed.
Print Assumptions C26_refuted.

(** Every second that chrono knows, of any year: the project comes back exactly when each of the five fields has two digits
    and the year has four characters, sign included. *)
Definition date_kept (dt : datetime) : Prop := two_digits dt /\ (1000 <= dt_year dt <= 9999 \/ -999 <= dt_year dt <= -100)%Z.
Definition with_created (t : N) (p : project) : project :=
  {| pj_id := pj_id p; pj_app_name := pj_app_name p; pj_workspace_name := pj_workspace_name p;
     pj_package_name := pj_package_name p; pj_version_code := pj_version_code p; pj_version_name := pj_version_name p;
     pj_date_created := t; pj_custom_icon := pj_custom_icon p; pj_palette := pj_palette p;
     pj_sketchware_version := pj_sketchware_version p |}.
Lemma project_back p : in_range p ->
  match datetime_of_timestamp (i64_of_u64 (pj_date_created p)) with
  | None => project_reconstruct p = Panic
  | Some dt => exists s, project_reconstruct p = Ok s /\
      project_parse s = let* t := date_de (date_text dt) in Ok (with_created t p)
  end.
Proof.
  intros (R1 & R2 & R3 & R4 & C). assert (OK : project_ok p).
  { unfold project_ok. change 65536 with (2 ^ 16). change 256 with (2 ^ 8). change 4294967296 with (2 ^ 32).
    repeat (split; auto). repeat (constructor; [tauto|]). constructor. }
  unfold project_reconstruct, date_ser. destruct (datetime_of_timestamp _) as [dt|]; [|reflexivity]. cbn [bind]. eexists. split; [reflexivity|].
  unfold project_parse. rewrite parse_print by apply e_project_wf. cbn [ok_or bind]. now rewrite d_project_e by auto.
Qed.
Lemma i64_bounds t : t < 2 ^ 64 -> (- 2 ^ 63 <= i64_of_u64 t < 2 ^ 63)%Z.
Proof.
  change (2 ^ 64) with 18446744073709551616. change (2 ^ 63)%Z with 9223372036854775808%Z. unfold i64_of_u64.
  destruct (N.ltb_spec t 9223372036854775808); lia.
Qed.
Lemma back_iff p dt : in_range p -> datetime_of_timestamp (i64_of_u64 (pj_date_created p)) = Some dt ->
  date_de (date_text dt) = Ok (pj_date_created p) <-> date_kept dt.
Proof.
  intros R H. destruct R as (_ & _ & _ & R4 & _). destruct (timestamp_rt _ _ H) as [T V].
  pose proof (date_back dt V) as D. rewrite T in D. rewrite (u64_i64 _ R4) in D. rewrite D by now apply i64_bounds.
  rewrite wide_two. reflexivity.
Qed.
Lemma with_created_same p : with_created (pj_date_created p) p = p.
Proof. now destruct p. Qed.
Lemma created_back p (d : res unit N) : Ok p = (let* t := d in Ok (with_created t p)) -> d = Ok (pj_date_created p).
Proof.
  destruct d as [t| |]; try discriminate. cbn [bind]. intros H. assert (E : pj_date_created p = pj_date_created (with_created t p)) by congruence. cbn in E. congruence.
Qed.
Theorem C25_exact p : in_range p ->
  (exists s q, project_reconstruct p = Ok s /\ project_parse s = Ok q /\ pj_date_created q = pj_date_created p) <->
  exists dt, datetime_of_timestamp (i64_of_u64 (pj_date_created p)) = Some dt /\ date_kept dt.
Proof.
  intros R. pose proof (project_back p R) as P. pose proof (back_iff p) as B. destruct (datetime_of_timestamp _) as [dt|].
  - specialize (B dt R eq_refl). destruct P as (s & E & G). split.
    + intros (s' & q & E' & G' & D). assert (s' = s) by congruence. subst s'. exists dt. split; [reflexivity|]. apply B.
      rewrite G in G'. destruct (date_de (date_text dt)) as [t| |]; try discriminate. cbn [bind] in G'. f_equal.
      match type of G' with Ok ?r = _ => assert (Hq : q = r) by congruence end. subst q. exact D.
    + intros (dt' & [= <-] & T). apply B in T. rewrite T in G. cbn [bind] in G. eexists s, _. split; [assumption|]. split; [exact G|reflexivity].
  - split; [|intros (dt & X & _); discriminate]. intros (s & q & E & _). congruence.
Qed.
Print Assumptions C25_exact.
Theorem C26_exact p : in_range p ->
  (exists s, project_reconstruct p = Ok s /\ project_parse s = Ok p) <->
  exists dt, datetime_of_timestamp (i64_of_u64 (pj_date_created p)) = Some dt /\ date_kept dt.
Proof.
  intros R. rewrite <- C25_exact by assumption. split; [intros (s & E & G); eauto|]. intros (s & q & E & G & D). exists s. split; [assumption|].
  destruct (C26_other_fields p s q R E G) as (? & ? & ? & ? & ? & ? & ? & ? & ?). rewrite G. f_equal. destruct p, q. cbn in *. congruence.
Qed.
Print Assumptions C26_exact.

Definition ex_project (date : N) : project :=
  {| pj_id := 601; pj_app_name := lit "App ""1"""; pj_workspace_name := lit "ws"; pj_package_name := lit "a.b"; pj_version_code := 65535;
     pj_version_name := lit "1.0"; pj_date_created := date; pj_custom_icon := true; pj_palette := palette_default;
     pj_sketchware_version := 150 |}.
(** 2021-11-15 11:12:13 and, with a one digit hour, 2021-11-15 01:12:13 *)
Example C25_example :
  datetime_of_timestamp 1636974733 =
    Some {| dt_year := 2021; dt_month := 11; dt_day := 15; dt_hour := 11; dt_minute := 12; dt_second := 13 |} /\
  in_range (ex_project 1636974733) /\
  (let* s := project_reconstruct (ex_project 1636974733) in project_parse s) = Ok (ex_project 1636974733) /\
  datetime_of_timestamp 1636938733 =
    Some {| dt_year := 2021; dt_month := 11; dt_day := 15; dt_hour := 1; dt_minute := 12; dt_second := 13 |} /\
  (let* s := project_reconstruct (ex_project 1636938733) in project_parse s) = Panic.
Proof. repeat split; try (vm_compute; reflexivity). Qed.
(** 10010-10-10 10:10:10 comes back as 1001-01-01 01:01:01; a date of the year -123 comes back *)
Definition ex_stamp (y : Z) (n : Z) : datetime := {| dt_year := y; dt_month := n; dt_day := n; dt_hour := n; dt_minute := n; dt_second := n |}.
Example C25_example_years :
  (let p := ex_project (u64_of_i64 (timestamp_of (ex_stamp 10010 10))) in
   in_range p /\ (let* s := project_reconstruct p in project_parse s) = Ok (ex_project (u64_of_i64 (timestamp_of (ex_stamp 1001 1))))) /\
  (let p := ex_project (u64_of_i64 (timestamp_of (ex_stamp (-123) 12))) in
   in_range p /\ (let* s := project_reconstruct p in project_parse s) = Ok p) /\
  (let p := ex_project (u64_of_i64 (timestamp_of (ex_stamp 999 12))) in
   in_range p /\ (let* s := project_reconstruct p in project_parse s) = Panic).
Proof. repeat split; try (vm_compute; reflexivity). Qed.
Example C26_example :
  project_reconstruct (ex_project 1636974733) =
    Ok (lit "{""sc_id"":""601"",""my_app_name"":""App \""1\"""",""my_ws_name"":""ws"",""my_sc_pkg_name"":""a.b"",""sc_ver_code"":""65535"",""sc_ver_name"":""1.0"",""my_sc_reg_dt"":""20211115111213"",""custom_icon"":true,""color_primary"":-16740915,""color_primary_dark"":-16743230,""color_accent"":-16740915,""color_control_normal"":-11026706,""color_control_highlight"":536907213,""sketchware_ver"":150}").
Proof. vm_compute. reflexivity. Qed.
