(** Model of /repo/src/parser/file.rs. *)
From Verif Require Import Base Dec Json Recs.

(** file.rs L143-174 ([serde_repr]: the number of the variant) *)
Inductive file_type := FtActivity | FtCustomView | FtDrawer.
Inductive keyboard_setting := KbUnspecified | KbVisible | KbHidden.
Inductive orientation := OrPortrait | OrLandscape | OrBoth.
Inductive theme := ThNone | ThDefault | ThActionbar | ThFullscreen.

(** file.rs L145-149 *)
Definition file_type_num (t : file_type) : N := match t with FtActivity => 0 | FtCustomView => 1 | FtDrawer => 2 end.
Definition file_type_of (n : N) : option file_type :=
  if n =? 0 then Some FtActivity else if n =? 1 then Some FtCustomView else if n =? 2 then Some FtDrawer else None.
(** file.rs L153-157 *)
Definition keyboard_num (t : keyboard_setting) : N := match t with KbUnspecified => 0 | KbVisible => 1 | KbHidden => 2 end.
Definition keyboard_of (n : N) : option keyboard_setting :=
  if n =? 0 then Some KbUnspecified else if n =? 1 then Some KbVisible else if n =? 2 then Some KbHidden else None.
(** file.rs L161-165 *)
Definition orientation_num (t : orientation) : N := match t with OrPortrait => 0 | OrLandscape => 1 | OrBoth => 2 end.
Definition orientation_of (n : N) : option orientation :=
  if n =? 0 then Some OrPortrait else if n =? 1 then Some OrLandscape else if n =? 2 then Some OrBoth else None.
(** file.rs L169-174 *)
Definition theme_num (t : theme) : Z := match t with ThNone => -1 | ThDefault => 0 | ThActionbar => 1 | ThFullscreen => 2 end.
Definition theme_of (n : Z) : option theme :=
  if (n =? -1)%Z then Some ThNone else if (n =? 0)%Z then Some ThDefault
  else if (n =? 1)%Z then Some ThActionbar else if (n =? 2)%Z then Some ThFullscreen else None.

(** file.rs L177-182 *)
Record activity_options := { ao_toolbar : bool; ao_fullscreen : bool; ao_drawer : bool; ao_fab : bool }.
(** file.rs L207-212 *)
Definition MASK_TOOLBAR : N := N.shiftl 1 0.
Definition MASK_FULLSCREEN : N := N.shiftl 1 1.
Definition MASK_DRAWER : N := N.shiftl 1 2.
Definition MASK_FAB : N := N.shiftl 1 3.
(** file.rs L185-192 *)
Definition options_from_num (num : N) : activity_options :=
  {| ao_toolbar := N.land num MASK_TOOLBAR =? MASK_TOOLBAR;
     ao_fullscreen := N.land num MASK_FULLSCREEN =? MASK_FULLSCREEN;
     ao_drawer := N.land num MASK_DRAWER =? MASK_DRAWER;
     ao_fab := N.land num MASK_FAB =? MASK_FAB |}.
(** file.rs L194-203 *)
Definition options_as_num (o : activity_options) : N :=
  let r := 0 in
  let r := if ao_toolbar o then N.lor r MASK_TOOLBAR else r in
  let r := if ao_fullscreen o then N.lor r MASK_FULLSCREEN else r in
  let r := if ao_drawer o then N.lor r MASK_DRAWER else r in
  if ao_fab o then N.lor r MASK_FAB else r.

(** file.rs L114-128 *)
Record file_item := {
  fi_filename : str; fi_type : file_type; fi_keyboard : keyboard_setting;
  fi_options : activity_options; fi_orientation : orientation; fi_theme : theme
}.
(** file.rs L113-128: derive(Deserialize), derive(Serialize); the options through L214-225 *)
Definition d_file_item (j : json) : option file_item :=
  let? fs := sf ["fileName"; "fileType"; "keyboardSetting"; "options"; "orientation"; "theme"]%string j in
  match fs with
  | [a; b; c; d; e; f] =>
    let? name := req d_str a in
    let? ty := req (fun j => let? n := d_u8 j in file_type_of n) b in
    let? kb := req (fun j => let? n := d_u8 j in keyboard_of n) c in
    let? op := req (fun j => let? n := d_u8 j in Some (options_from_num n)) d in
    let? ori := req (fun j => let? n := d_u8 j in orientation_of n) e in
    let? th := req (fun j => let? n := d_i8 j in theme_of n) f in
    Some {| fi_filename := name; fi_type := ty; fi_keyboard := kb; fi_options := op; fi_orientation := ori; fi_theme := th |}
  | _ => None
  end.
Definition e_file_item (x : file_item) : json :=
  e_obj [("fileName", e_str (fi_filename x));
         ("fileType", e_int (Z.of_N (file_type_num (fi_type x))));
         ("keyboardSetting", e_int (Z.of_N (keyboard_num (fi_keyboard x))));
         ("options", e_int (Z.of_N (options_as_num (fi_options x))));
         ("orientation", e_int (Z.of_N (orientation_num (fi_orientation x))));
         ("theme", e_int (theme_num (fi_theme x)))]%string.
(** file.rs L134-136, L138-140; serialising never fails *)
Definition file_item_parse (s : str) : option file_item := from_str d_file_item s.
Definition file_item_reconstruct (x : file_item) : str := to_string e_file_item x.

(** file.rs L7-10 *)
Record file := { f_activities : list file_item; f_custom_views : list file_item }.
(** file.rs L95-102 *)
Inductive file_error := FileItemParseError (line : N) (content : str).
(** file.rs L20-24 *)
Inductive file_section := FsActivity | FsCustomView | FsNone.
(** file.rs L30-61; [line_count] wraps only after 2^32 lines, which is not modelled *)
Fixpoint file_loop (lines : list str) (sec : file_section) (acc : file) (n : N) : res file_error file :=
  match lines with
  | [] => Ok acc
  | l :: r =>
    if str_eqb l (lit "@activity") then file_loop r FsActivity acc (n + 1)
    else if str_eqb l (lit "@customview") then file_loop r FsCustomView acc (n + 1)
    else
      match sec with
      | FsNone => file_loop r sec acc (n + 1)
      | _ =>
        match l with
        | [] => Ok acc                        (* L42: break *)
        | _ =>
          match file_item_parse l with
          | None => Err (FileItemParseError n l)
          | Some it =>
            file_loop r sec
              (match sec with
               | FsActivity => {| f_activities := f_activities acc ++ [it]; f_custom_views := f_custom_views acc |}
               | _ => {| f_activities := f_activities acc; f_custom_views := f_custom_views acc ++ [it] |}
               end) (n + 1)
          end
        end
      end
  end.
(** file.rs L16-64 *)
Definition file_parse (s : str) : res file_error file :=
  file_loop (split_on NL s) FsNone {| f_activities := []; f_custom_views := [] |} 0.
(** file.rs L69-78 and L80-89: fold of "{acc}\n{item}", then trim *)
Definition file_items_text (l : list file_item) : str :=
  trim (fold_left (fun acc i => acc ++ [NL] ++ file_item_reconstruct i) l []).
(** file.rs L66-91 *)
Definition file_reconstruct (f : file) : str :=
  lit "@activity" ++ [NL] ++ file_items_text (f_activities f) ++ [NL] ++ lit "@customview" ++ [NL]
  ++ file_items_text (f_custom_views f).
