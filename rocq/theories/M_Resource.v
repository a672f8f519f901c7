(** Model of /repo/src/parser/resource.rs. *)
From Verif Require Import Base Dec Json Recs.

(** resource.rs L132-145 *)
Record resource_item := { ri_full_name : str; ri_name : str; ri_type : N }.
Definition d_resource_item (j : json) : option resource_item :=
  let? fs := sf ["resFullName"; "resName"; "resType"]%string j in
  match fs with
  | [a; b; c] =>
    let? f := req d_str a in let? n := req d_str b in let? t := req d_u8 c in
    Some {| ri_full_name := f; ri_name := n; ri_type := t |}
  | _ => None
  end.
Definition e_resource_item (x : resource_item) : json :=
  e_obj [("resFullName", e_str (ri_full_name x)); ("resName", e_str (ri_name x));
         ("resType", e_int (Z.of_N (ri_type x)))]%string.
(** resource.rs L151-157 *)
Definition resource_item_parse (s : str) : option resource_item := from_str d_resource_item s.
Definition resource_item_reconstruct (x : resource_item) : str := to_string e_resource_item x.

(** resource.rs L6-10 *)
Record resource := { rs_images : list resource_item; rs_sounds : list resource_item; rs_fonts : list resource_item }.
(** resource.rs L13-18 *)
Inductive res_section := RsImages | RsSounds | RsFonts | RsNone.
(** resource.rs L111-119 *)
Inductive resource_error := ResourceItemParseError (section : res_section) (line : N).
(** resource.rs L55-62 *)
Definition rs_push (s : res_section) (i : resource_item) (r : resource) : resource :=
  match s with
  | RsImages => {| rs_images := rs_images r ++ [i]; rs_sounds := rs_sounds r; rs_fonts := rs_fonts r |}
  | RsSounds => {| rs_images := rs_images r; rs_sounds := rs_sounds r ++ [i]; rs_fonts := rs_fonts r |}
  | _ => {| rs_images := rs_images r; rs_sounds := rs_sounds r; rs_fonts := rs_fonts r ++ [i] |}
  end.
(** resource.rs L31-66 *)
Fixpoint resource_loop (lines : list str) (sec : res_section) (acc : resource) (n : N) : res resource_error resource :=
  match lines with
  | [] => Ok acc
  | l :: r =>
    if str_eqb l (lit "@images") then resource_loop r RsImages acc (n + 1)
    else if str_eqb l (lit "@sounds") then resource_loop r RsSounds acc (n + 1)
    else if str_eqb l (lit "@fonts") then resource_loop r RsFonts acc (n + 1)
    else
      match sec with
      | RsNone => resource_loop r sec acc (n + 1)
      | _ =>
        match l with
        | [] => Ok acc
        | _ =>
          match resource_item_parse l with
          | None => Err (ResourceItemParseError sec n)
          | Some it => resource_loop r sec (rs_push sec it acc) (n + 1)
          end
        end
      end
  end.
(** resource.rs L24-69 *)
Definition resource_parse (s : str) : res resource_error resource :=
  resource_loop (split_on NL s) RsNone {| rs_images := []; rs_sounds := []; rs_fonts := [] |} 0.
(** resource.rs L75-84: fold of "{acc}{item}\n" *)
Definition resource_items_text (l : list resource_item) : str :=
  fold_left (fun acc i => acc ++ resource_item_reconstruct i ++ [NL]) l [].
(** resource.rs L71-107 *)
Definition resource_reconstruct (r : resource) : str :=
  lit "@images" ++ [NL] ++ resource_items_text (rs_images r) ++
  lit "@sounds" ++ [NL] ++ resource_items_text (rs_sounds r) ++
  lit "@fonts" ++ [NL] ++ trim (resource_items_text (rs_fonts r)).
