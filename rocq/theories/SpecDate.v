(** What the text of a creation date means (/repo/src/parser/serde_util.rs L7-22), the days of the Gregorian calendar, and
    the project object (/repo/src/parser/project.rs L6-47). Written without the calendar arithmetic of M_Date.v and the
    readers of M_Project.v. *)
From Verif Require Import Base Json M_Color M_Project SpecReading SpecJson SpecNumber SpecRecord.
Local Open Scope Z_scope.

(** ** The calendar: 1970-01-01 is day 0; the other days by counting on and back *)
Definition leap_year (y : Z) : Prop := (4 | y) /\ (~ (100 | y) \/ (400 | y)).
Inductive month_days (y : Z) : Z -> Z -> Prop :=
| md_31 m : In m [1; 3; 5; 7; 8; 10; 12] -> month_days y m 31
| md_30 m : In m [4; 6; 9; 11] -> month_days y m 30
| md_28 : ~ leap_year y -> month_days y 2 28
| md_29 : leap_year y -> month_days y 2 29.
Inductive day_after : Z * Z * Z -> Z * Z * Z -> Prop :=
| da_day y m d n : month_days y m n -> 1 <= d < n -> day_after (y, m, d) (y, m, d + 1)
| da_month y m n : month_days y m n -> m < 12 -> day_after (y, m, n) (y, m + 1, 1)
| da_year y : day_after (y, 12, 31) (y + 1, 1, 1).
Inductive day_number : Z * Z * Z -> Z -> Prop :=
| dn_epoch : day_number (1970, 1, 1) 0
| dn_next a b n : day_number a n -> day_after a b -> day_number b (n + 1)
| dn_prev a b n : day_number b n -> day_after a b -> day_number a (n - 1).

(** ** The text: pieces of 4, 2, 2, 2, 2 and 2 bytes that are numbers; what follows them is ignored *)
Definition unsigned (t : str) (z : Z) : Prop := exists sign ds, t = sign ++ ds /\ In sign [[]; lit "+"] /\ digits ds /\ z = decimal ds.
Definition signed (t : str) (z : Z) : Prop := unsigned t z \/ exists ds, t = lit "-" ++ ds /\ digits ds /\ z = - decimal ds.
Definition piece : Type := nat * (str -> Z -> Prop).
Definition pieces : list piece := [(4%nat, signed); (2%nat, unsigned); (2%nat, unsigned); (2%nat, unsigned); (2%nat, unsigned); (2%nat, unsigned)].
(** [cut ps d zs ps' rest]: the text begins with the numbers [zs]; the pieces [ps'] and the text [rest] remain *)
Inductive cut : list piece -> str -> list Z -> list piece -> str -> Prop :=
| cut_none ps d : cut ps d [] ps d
| cut_piece n (R : str -> Z -> Prop) ps p z d zs ps' rest : blen p = n -> R p z -> cut ps d zs ps' rest -> cut ((n, R) :: ps) (p ++ d) (z :: zs) ps' rest.
(** six numbers that are a second of the calendar: the number of the second, counted from 1970 *)
Definition second_of (zs : list Z) (t : Z) : Prop :=
  exists y m d h mi s n, zs = [y; m; d; h; mi; s] /\ day_number (y, m, d) n /\ 0 <= h < 24 /\ 0 <= mi < 60 /\ 0 <= s < 60 /\
    t = ((n * 24 + h) * 60 + mi) * 60 + s.
(** the date is read (seconds before 1970 wrap around to a u64) *)
Definition date_value (d : str) (t : N) : Prop :=
  exists zs rest z, cut pieces d zs [] rest /\ second_of zs z /\ Z.of_N t = z mod 2 ^ 64.
(** the reader panics: a piece cannot be cut off, or the numbers are not a second of the calendar *)
Definition date_crash (d : str) : Prop :=
  (exists zs n (R : str -> Z -> Prop) ps rest, cut pieces d zs ((n, R) :: ps) rest /\ forall p q, rest = p ++ q -> blen p <> n) \/
  (exists zs rest, cut pieces d zs [] rest /\ forall t, ~ second_of zs t).
(** a piece is not a number *)
Definition date_wrong (d : str) : Prop :=
  exists zs n (R : str -> Z -> Prop) ps p rest, cut pieces d zs ((n, R) :: ps) (p ++ rest) /\ blen p = n /\ forall z, ~ R p z.

(** ** The project object: fields by name only *)
Record project_reads (kvs : list (option str * json)) (p : project) : Prop := {
  pr_id : field kvs "sc_id" u16_text (pj_id p);
  pr_app : field kvs "my_app_name" text (pj_app_name p);
  pr_ws : field kvs "my_ws_name" text (pj_workspace_name p);
  pr_pkg : field kvs "my_sc_pkg_name" text (pj_package_name p);
  pr_vc : field kvs "sc_ver_code" u16_text (pj_version_code p);
  pr_vn : field kvs "sc_ver_name" text (pj_version_name p);
  pr_date : exists t, field kvs "my_sc_reg_dt" text t /\ date_value t (pj_date_created p);
  pr_icon : field kvs "custom_icon" (fun j b => j = JBool b) (pj_custom_icon p);
  pr_sv : field kvs "sketchware_ver" (natural 255) (pj_sketchware_version p);
  pr_c1 : field kvs "color_primary" colour (pal_primary (pj_palette p));
  pr_c2 : field kvs "color_primary_dark" colour (pal_primary_dark (pj_palette p));
  pr_c3 : field kvs "color_accent" colour (pal_accent (pj_palette p));
  pr_c4 : field kvs "color_control_normal" colour (pal_control_normal (pj_palette p));
  pr_c5 : field kvs "color_control_highlight" colour (pal_control_highlight (pj_palette p));
  pr_all : Forall entry_ok kvs
}.

(** ** A text that stops the program: the members up to the date can be read, and the date crashes the reader *)
(** a field that is missing or, once, readable *)
Definition perhaps {A} (kvs : list (option str * json)) (k : string) (R : json -> A -> Prop) : Prop :=
  ~ In (Some (lit k)) (map fst kvs) \/ exists x, field kvs k R x.
Record begins (kvs : list (option str * json)) : Prop := {
  be_id : perhaps kvs "sc_id" u16_text;
  be_app : perhaps kvs "my_app_name" text;
  be_ws : perhaps kvs "my_ws_name" text;
  be_pkg : perhaps kvs "my_sc_pkg_name" text;
  be_vc : perhaps kvs "sc_ver_code" u16_text;
  be_vn : perhaps kvs "sc_ver_name" text;
  be_date : ~ In (Some (lit "my_sc_reg_dt")) (map fst kvs);
  be_icon : perhaps kvs "custom_icon" (fun j b => j = JBool b);
  be_sv : perhaps kvs "sketchware_ver" (natural 255);
  be_all : Forall entry_ok kvs
}.
Definition project_crash (s : str) : Prop :=
  exists w kvs d m rest, s = w ++ lit "{" ++ m ++ rest /\ blank w /\
    members_text (kvs ++ [(Some (lit "my_sc_reg_dt"), JStr (Some d))]) m /\ begins kvs /\ date_crash d.
