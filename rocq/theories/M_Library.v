(** Model of /repo/src/parser/library.rs. *)
From Verif Require Import Base Dec Json Recs.

(** library.rs L153-157 *)
Record ad_unit := { au_id : str; au_name : str }.
Definition d_ad_unit (j : json) : option ad_unit :=
  let? fs := sf ["id"; "name"]%string j in
  match fs with
  | [a; b] => let? i := req d_str a in let? n := req d_str b in Some {| au_id := i; au_name := n |}
  | _ => None
  end.
Definition e_ad_unit (x : ad_unit) : json := e_obj [("id", e_str (au_id x)); ("name", e_str (au_name x))]%string.

(** library.rs L125-136 ([rename_all = "camelCase"]) *)
Record library_item := {
  li_ad_units : list ad_unit; li_data : str; li_lib_type : N;
  li_reserved1 : str; li_reserved2 : str; li_reserved3 : str;
  li_test_devices : list str; li_use_yn : str
}.
Definition d_library_item (j : json) : option library_item :=
  let? fs := sf ["adUnits"; "data"; "libType"; "reserved1"; "reserved2"; "reserved3"; "testDevices"; "useYn"]%string j in
  match fs with
  | [a; b; c; d; e; f; g; h] =>
    let? au := req (d_list d_ad_unit) a in
    let? da := req d_str b in
    let? lt := req d_u8 c in
    let? r1 := req d_str d in
    let? r2 := req d_str e in
    let? r3 := req d_str f in
    let? td := req (d_list d_str) g in
    let? yn := req d_str h in
    Some {| li_ad_units := au; li_data := da; li_lib_type := lt; li_reserved1 := r1; li_reserved2 := r2;
            li_reserved3 := r3; li_test_devices := td; li_use_yn := yn |}
  | _ => None
  end.
Definition e_library_item (x : library_item) : json :=
  e_obj [("adUnits", JArr (map e_ad_unit (li_ad_units x)));
         ("data", e_str (li_data x));
         ("libType", e_int (Z.of_N (li_lib_type x)));
         ("reserved1", e_str (li_reserved1 x));
         ("reserved2", e_str (li_reserved2 x));
         ("reserved3", e_str (li_reserved3 x));
         ("testDevices", JArr (map e_str (li_test_devices x)));
         ("useYn", e_str (li_use_yn x))]%string.
(** library.rs L142-148 *)
Definition library_item_parse (s : str) : option library_item := from_str d_library_item s.
Definition library_item_reconstruct (x : library_item) : str := to_string e_library_item x.

(** library.rs L6-11 *)
Record library := { l_firebase : library_item; l_compat : library_item; l_admob : library_item; l_google_map : library_item }.
(** library.rs L97-113 *)
Inductive library_error :=
| EOFAfterHeader (header : str)
| LibraryItemParseError (header : str) (line : N)
| MissingItem (header : str).
(** the four local variables of library.rs L20-23 *)
Record lib_state := { ls_firebase : option library_item; ls_compat : option library_item;
                      ls_admob : option library_item; ls_google_map : option library_item }.
Inductive lib_slot := LFirebase | LCompat | LAdmob | LGoogleMap.
(** library.rs L49-55 *)
Definition lib_header (s : lib_slot) : str :=
  match s with
  | LFirebase => lit "@firebaseDB" | LCompat => lit "@compat" | LAdmob => lit "@admob" | LGoogleMap => lit "@googleMap"
  end.
Definition lib_slot_of (l : str) : option lib_slot :=
  if str_eqb l (lib_header LFirebase) then Some LFirebase
  else if str_eqb l (lib_header LCompat) then Some LCompat
  else if str_eqb l (lib_header LAdmob) then Some LAdmob
  else if str_eqb l (lib_header LGoogleMap) then Some LGoogleMap
  else None.
Definition lib_set (s : lib_slot) (i : library_item) (st : lib_state) : lib_state :=
  match s with
  | LFirebase => {| ls_firebase := Some i; ls_compat := ls_compat st; ls_admob := ls_admob st; ls_google_map := ls_google_map st |}
  | LCompat => {| ls_firebase := ls_firebase st; ls_compat := Some i; ls_admob := ls_admob st; ls_google_map := ls_google_map st |}
  | LAdmob => {| ls_firebase := ls_firebase st; ls_compat := ls_compat st; ls_admob := Some i; ls_google_map := ls_google_map st |}
  | LGoogleMap => {| ls_firebase := ls_firebase st; ls_compat := ls_compat st; ls_admob := ls_admob st; ls_google_map := Some i |}
  end.
(** library.rs L44-58 with the macro of L27-42: a header consumes the next line as well *)
Fixpoint lib_loop (lines : list str) (st : lib_state) (n : N) : res library_error lib_state :=
  match lines with
  | [] => Ok st
  | l :: r =>
    match lib_slot_of l with
    | None => lib_loop r st (n + 1)
    | Some s =>
      match r with
      | [] => Err (EOFAfterHeader (lib_header s))
      | item :: r' =>
        match library_item_parse item with
        | None => Err (LibraryItemParseError (lib_header s) n)
        | Some i => lib_loop r' (lib_set s i st) (n + 1)
        end
      end
    end
  end.
(** library.rs L17-66 *)
Definition library_parse (s : str) : res library_error library :=
  let* st := lib_loop (split_on NL s) {| ls_firebase := None; ls_compat := None; ls_admob := None; ls_google_map := None |} 0 in
  let* f := ok_or (MissingItem (lib_header LFirebase)) (ls_firebase st) in
  let* c := ok_or (MissingItem (lib_header LCompat)) (ls_compat st) in
  let* a := ok_or (MissingItem (lib_header LAdmob)) (ls_admob st) in
  let* g := ok_or (MissingItem (lib_header LGoogleMap)) (ls_google_map st) in
  Ok {| l_firebase := f; l_compat := c; l_admob := a; l_google_map := g |}.
(** library.rs L68-93 *)
Definition library_reconstruct (l : library) : str :=
  lib_header LFirebase ++ [NL] ++ library_item_reconstruct (l_firebase l) ++ [NL] ++
  lib_header LCompat ++ [NL] ++ library_item_reconstruct (l_compat l) ++ [NL] ++
  lib_header LAdmob ++ [NL] ++ library_item_reconstruct (l_admob l) ++ [NL] ++
  lib_header LGoogleMap ++ [NL] ++ library_item_reconstruct (l_google_map l).
