(** Calendar arithmetic of chrono (external crate): the proleptic Gregorian calendar.
    chrono stores dates differently (ordinal and table look-ups); only the calendar itself is
    modelled, with 400-year cycles starting on March 1st. *)
From Verif Require Import Base.
Local Open Scope Z_scope.

Definition leap (y : Z) : bool := ((y mod 4 =? 0) && negb (y mod 100 =? 0)) || (y mod 400 =? 0).
Definition days_in_month (y m : Z) : Z :=
  if m =? 2 then (if leap y then 29 else 28)
  else if (m =? 4) || (m =? 6) || (m =? 9) || (m =? 11) then 30 else 31.
Definition valid_ymd (y m d : Z) : bool :=
  (1 <=? m) && (m <=? 12) && (1 <=? d) && (d <=? days_in_month y m).
(** day number inside a cycle of 400 years; [yoe] counts years from March *)
Definition day_of_cycle (yoe m d : Z) : Z :=
  yoe * 365 + yoe / 4 - yoe / 100 + (153 * (if 2 <? m then m - 3 else m + 9) + 2) / 5 + d - 1.
(** days since 1970-01-01 *)
Definition days_of_ymd (y m d : Z) : Z :=
  let y' := if m <=? 2 then y - 1 else y in
  (y' / 400) * 146097 + day_of_cycle (y' mod 400) m d - 719468.
Definition ymd_of_cycle (doe : Z) : Z * Z * Z :=
  let yoe := (doe - doe / 1460 + doe / 36524 - doe / 146096) / 365 in
  let doy := doe - (365 * yoe + yoe / 4 - yoe / 100) in
  let mp := (5 * doy + 2) / 153 in
  (yoe, if mp <? 10 then mp + 3 else mp - 9, doy - (153 * mp + 2) / 5 + 1).
Definition ymd_of_days (n : Z) : Z * Z * Z :=
  let z := n + 719468 in
  let '(yoe, m, d) := ymd_of_cycle (z mod 146097) in
  let y := yoe + (z / 146097) * 400 in
  (if m <=? 2 then y + 1 else y, m, d).

(** the calendar day after *)
Definition next_day (y m d : Z) : Z * Z * Z :=
  if d <? days_in_month y m then (y, m, d + 1)
  else if m <? 12 then (y, m + 1, 1) else (y + 1, 1, 1).

(** broken-down time of [NaiveDateTime::from_timestamp(t, 0)]; years representable by chrono *)
Record datetime := { dt_year : Z; dt_month : Z; dt_day : Z; dt_hour : Z; dt_minute : Z; dt_second : Z }.
Definition MIN_YEAR : Z := -262143.
Definition MAX_YEAR : Z := 262142.
Definition datetime_of_timestamp (t : Z) : option datetime :=
  let '(y, m, d) := ymd_of_days (t / 86400) in
  let s := t mod 86400 in
  if (MIN_YEAR <=? y) && (y <=? MAX_YEAR) then
    Some {| dt_year := y; dt_month := m; dt_day := d; dt_hour := s / 3600; dt_minute := s / 60 mod 60; dt_second := s mod 60 |}
  else None.
Definition timestamp_of (dt : datetime) : Z :=
  days_of_ymd (dt_year dt) (dt_month dt) (dt_day dt) * 86400 + dt_hour dt * 3600 + dt_minute dt * 60 + dt_second dt.
(** [NaiveDate::from_ymd] and [and_hms] accept *)
Definition valid_datetime (dt : datetime) : bool :=
  (MIN_YEAR <=? dt_year dt) && (dt_year dt <=? MAX_YEAR) && valid_ymd (dt_year dt) (dt_month dt) (dt_day dt) &&
  (0 <=? dt_hour dt) && (dt_hour dt <? 24) && (0 <=? dt_minute dt) && (dt_minute dt <? 60) && (0 <=? dt_second dt) && (dt_second dt <? 60).
