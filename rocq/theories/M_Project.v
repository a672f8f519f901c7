(** Model of /repo/src/parser/project.rs and of the date and u16 adapters of
    /repo/src/parser/serde_util.rs. *)
From Verif Require Import Base Dec Flt Json Recs M_Color M_Date.

(** project.rs L40-47 *)
Record palette := { pal_primary : color; pal_primary_dark : color; pal_accent : color;
                    pal_control_normal : color; pal_control_highlight : color }.
(** project.rs L49-59 *)
Definition palette_default : palette :=
  {| pal_primary := color_of_u32 0xff008dcd; pal_primary_dark := color_of_u32 0xff0084c2;
     pal_accent := color_of_u32 0xff008dcd; pal_control_normal := color_of_u32 0xff57beee;
     pal_control_highlight := color_of_u32 0x20008dcd |}.
(** project.rs L6-38 *)
Record project := {
  pj_id : N; pj_app_name : str; pj_workspace_name : str; pj_package_name : str;
  pj_version_code : N; pj_version_name : str; pj_date_created : N; pj_custom_icon : bool;
  pj_palette : palette; pj_sketchware_version : N
}.

(** [as u64] of an i64, [as i64] of a u64 (the latter is [i64_of_u64] of M_Color.v) *)
Definition u64_of_i64 (z : Z) : N := Z.to_N (z mod 18446744073709551616).

(** serde_util.rs L24-37; [from_timestamp] panics outside chrono's year range *)
Definition date_text (dt : datetime) : str :=
  dec_of_Z (dt_year dt) ++ dec_of_Z (dt_month dt) ++ dec_of_Z (dt_day dt) ++
  dec_of_Z (dt_hour dt) ++ dec_of_Z (dt_minute dt) ++ dec_of_Z (dt_second dt).
Definition date_ser {E} (t : N) : res E str :=
  match datetime_of_timestamp (i64_of_u64 t) with
  | None => Panic
  | Some dt => Ok (date_text dt)
  end.
(** serde_util.rs L7-22 after reading the string: slices panic when out of range, invalid dates and
    times panic in chrono, a field that is not a number is an error *)
Definition date_de (v : str) : res unit N :=
  let* s := unwrap (bslice 0 4 v) in let* year := ok_or tt (parse_i32 s) in
  let* s := unwrap (bslice 4 6 v) in let* month := ok_or tt (parse_u32 s) in
  let* s := unwrap (bslice 6 8 v) in let* day := ok_or tt (parse_u32 s) in
  let* s := unwrap (bslice 8 10 v) in let* hour := ok_or tt (parse_u32 s) in
  let* s := unwrap (bslice 10 12 v) in let* minute := ok_or tt (parse_u32 s) in
  let* s := unwrap (bslice 12 14 v) in let* second := ok_or tt (parse_u32 s) in
  let dt := {| dt_year := year; dt_month := Z.of_N month; dt_day := Z.of_N day; dt_hour := Z.of_N hour;
               dt_minute := Z.of_N minute; dt_second := Z.of_N second |} in
  if valid_datetime dt then Ok (u64_of_i64 (timestamp_of dt)) else Panic.
(** serde_util.rs L47-54 *)
Definition d_u16_text (j : json) : option N := let? s := d_str j in parse_u16 s.
Definition e_u16_text (n : N) : json := e_str (dec_of_N n).

(** serde buffers the values of unknown fields (because of [flatten]) as [Content]: every number must
    be in range, every string valid, and serde_json's recursion limit of 128 applies (one level is used
    by the object itself). *)
Fixpoint content_ok (depth : nat) (j : json) : bool :=
  match j with
  | JNull | JBool _ => true
  | JNum n => match classify n with NRange => false | _ => true end
  | JStr s => match s with Some _ => true | None => false end
  | JArr l => match depth with O => false | S d => forallb (content_ok d) l end
  | JObj l => match depth with
              | O => false
              | S d => forallb (fun kv => match fst kv with Some _ => content_ok d (snd kv) | None => false end) l
              end
  end.
Definition CONTENT_DEPTH : nat := 126.

(** the locals of the derived visitor: one option per field and the buffered rest *)
Record pj_state := {
  ps_id : option N; ps_app : option str; ps_ws : option str; ps_pkg : option str; ps_vc : option N; ps_vn : option str;
  ps_date : option N; ps_icon : option bool; ps_sv : option N; ps_rest : list (str * json)
}.
Definition pj_start : pj_state :=
  {| ps_id := None; ps_app := None; ps_ws := None; ps_pkg := None; ps_vc := None; ps_vn := None; ps_date := None;
     ps_icon := None; ps_sv := None; ps_rest := [] |}.
(** a repeated field is an error before its value is read *)
Definition once {A} (o : option A) (r : res unit A) : res unit A := match o with Some _ => Err tt | None => r end.
(** project.rs L6-38, derive(Deserialize) with [flatten]: fields are read in text order. *)
Definition pj_step (st : pj_state) (kv : option str * json) : res unit pj_state :=
  match kv with
  | (None, _) => Err tt
  | (Some k, v) =>
    if str_eqb k (lit "sc_id") then
      let* x := once (ps_id st) (ok_or tt (d_u16_text v)) in
      Ok {| ps_id := Some x; ps_app := ps_app st; ps_ws := ps_ws st; ps_pkg := ps_pkg st; ps_vc := ps_vc st; ps_vn := ps_vn st; ps_date := ps_date st; ps_icon := ps_icon st; ps_sv := ps_sv st; ps_rest := ps_rest st |}
    else if str_eqb k (lit "my_app_name") then
      let* x := once (ps_app st) (ok_or tt (d_str v)) in
      Ok {| ps_id := ps_id st; ps_app := Some x; ps_ws := ps_ws st; ps_pkg := ps_pkg st; ps_vc := ps_vc st; ps_vn := ps_vn st; ps_date := ps_date st; ps_icon := ps_icon st; ps_sv := ps_sv st; ps_rest := ps_rest st |}
    else if str_eqb k (lit "my_ws_name") then
      let* x := once (ps_ws st) (ok_or tt (d_str v)) in
      Ok {| ps_id := ps_id st; ps_app := ps_app st; ps_ws := Some x; ps_pkg := ps_pkg st; ps_vc := ps_vc st; ps_vn := ps_vn st; ps_date := ps_date st; ps_icon := ps_icon st; ps_sv := ps_sv st; ps_rest := ps_rest st |}
    else if str_eqb k (lit "my_sc_pkg_name") then
      let* x := once (ps_pkg st) (ok_or tt (d_str v)) in
      Ok {| ps_id := ps_id st; ps_app := ps_app st; ps_ws := ps_ws st; ps_pkg := Some x; ps_vc := ps_vc st; ps_vn := ps_vn st; ps_date := ps_date st; ps_icon := ps_icon st; ps_sv := ps_sv st; ps_rest := ps_rest st |}
    else if str_eqb k (lit "sc_ver_code") then
      let* x := once (ps_vc st) (ok_or tt (d_u16_text v)) in
      Ok {| ps_id := ps_id st; ps_app := ps_app st; ps_ws := ps_ws st; ps_pkg := ps_pkg st; ps_vc := Some x; ps_vn := ps_vn st; ps_date := ps_date st; ps_icon := ps_icon st; ps_sv := ps_sv st; ps_rest := ps_rest st |}
    else if str_eqb k (lit "sc_ver_name") then
      let* x := once (ps_vn st) (ok_or tt (d_str v)) in
      Ok {| ps_id := ps_id st; ps_app := ps_app st; ps_ws := ps_ws st; ps_pkg := ps_pkg st; ps_vc := ps_vc st; ps_vn := Some x; ps_date := ps_date st; ps_icon := ps_icon st; ps_sv := ps_sv st; ps_rest := ps_rest st |}
    else if str_eqb k (lit "my_sc_reg_dt") then
      let* x := once (ps_date st) (let* s := ok_or tt (d_str v) in date_de s) in
      Ok {| ps_id := ps_id st; ps_app := ps_app st; ps_ws := ps_ws st; ps_pkg := ps_pkg st; ps_vc := ps_vc st; ps_vn := ps_vn st; ps_date := Some x; ps_icon := ps_icon st; ps_sv := ps_sv st; ps_rest := ps_rest st |}
    else if str_eqb k (lit "custom_icon") then
      let* x := once (ps_icon st) (ok_or tt (d_bool v)) in
      Ok {| ps_id := ps_id st; ps_app := ps_app st; ps_ws := ps_ws st; ps_pkg := ps_pkg st; ps_vc := ps_vc st; ps_vn := ps_vn st; ps_date := ps_date st; ps_icon := Some x; ps_sv := ps_sv st; ps_rest := ps_rest st |}
    else if str_eqb k (lit "sketchware_ver") then
      let* x := once (ps_sv st) (ok_or tt (d_u8 v)) in
      Ok {| ps_id := ps_id st; ps_app := ps_app st; ps_ws := ps_ws st; ps_pkg := ps_pkg st; ps_vc := ps_vc st; ps_vn := ps_vn st; ps_date := ps_date st; ps_icon := ps_icon st; ps_sv := Some x; ps_rest := ps_rest st |}
    else if content_ok CONTENT_DEPTH v then
      Ok {| ps_id := ps_id st; ps_app := ps_app st; ps_ws := ps_ws st; ps_pkg := ps_pkg st; ps_vc := ps_vc st; ps_vn := ps_vn st; ps_date := ps_date st; ps_icon := ps_icon st; ps_sv := ps_sv st; ps_rest := ps_rest st ++ [(k, v)] |}
    else Err tt
  end.
Fixpoint pj_fold (kvs : list (option str * json)) (st : pj_state) : res unit pj_state :=
  match kvs with [] => Ok st | kv :: r => let* st' := pj_step st kv in pj_fold r st' end.
(** project.rs L40-47, derive(Deserialize) fed from the buffered fields *)
Definition d_palette (rest : list (str * json)) : option palette :=
  let? fs := sf ["color_primary"; "color_primary_dark"; "color_accent"; "color_control_normal"; "color_control_highlight"]%string
               (JObj (map (fun kv => (Some (fst kv), snd kv)) rest)) in
  match fs with
  | [a; b; c; d; e] =>
    let? a := req d_color a in let? b := req d_color b in let? c := req d_color c in
    let? d := req d_color d in let? e := req d_color e in
    Some {| pal_primary := a; pal_primary_dark := b; pal_accent := c; pal_control_normal := d; pal_control_highlight := e |}
  | _ => None
  end.
(** with [flatten] only objects are accepted *)
Definition d_project (j : json) : res unit project :=
  match j with
  | JObj kvs =>
    let* st := pj_fold kvs pj_start in
    let* id := ok_or tt (ps_id st) in let* app := ok_or tt (ps_app st) in let* ws := ok_or tt (ps_ws st) in
    let* pkg := ok_or tt (ps_pkg st) in let* vc := ok_or tt (ps_vc st) in let* vn := ok_or tt (ps_vn st) in
    let* da := ok_or tt (ps_date st) in let* ic := ok_or tt (ps_icon st) in let* sv := ok_or tt (ps_sv st) in
    let* pal := ok_or tt (d_palette (ps_rest st)) in
    Ok {| pj_id := id; pj_app_name := app; pj_workspace_name := ws; pj_package_name := pkg; pj_version_code := vc;
          pj_version_name := vn; pj_date_created := da; pj_custom_icon := ic; pj_palette := pal; pj_sketchware_version := sv |}
  | _ => Err tt
  end.
(** project.rs L65-67. serde_json decodes while it reads: in a malformed text the members before the fault are
    decoded too, and the date among them can panic; otherwise a malformed text is an error. *)
Definition project_parse (s : str) : res unit project :=
  match parse_json s with
  | Some j => d_project j
  | None => match pj_fold (members_read s) pj_start with Panic => Panic | _ => Err tt end
  end.
(** project.rs L6-38, derive(Serialize): declaration order, the palette's fields in place *)
Definition e_project (x : project) (date : str) : json :=
  e_obj [("sc_id", e_u16_text (pj_id x)); ("my_app_name", e_str (pj_app_name x)); ("my_ws_name", e_str (pj_workspace_name x));
         ("my_sc_pkg_name", e_str (pj_package_name x)); ("sc_ver_code", e_u16_text (pj_version_code x));
         ("sc_ver_name", e_str (pj_version_name x)); ("my_sc_reg_dt", e_str date); ("custom_icon", JBool (pj_custom_icon x));
         ("color_primary", e_color (pal_primary (pj_palette x))); ("color_primary_dark", e_color (pal_primary_dark (pj_palette x)));
         ("color_accent", e_color (pal_accent (pj_palette x))); ("color_control_normal", e_color (pal_control_normal (pj_palette x)));
         ("color_control_highlight", e_color (pal_control_highlight (pj_palette x)));
         ("sketchware_ver", e_int (Z.of_N (pj_sketchware_version x)))]%string.
(** project.rs L69-71 *)
Definition project_reconstruct (x : project) : res unit str :=
  let* date := date_ser (pj_date_created x) in
  Ok (print_json (e_project x date)).
