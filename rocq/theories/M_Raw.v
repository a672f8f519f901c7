(** Model of /repo/src/parser/mod.rs L35-132 (raw projects) and L288-466 (resource files). *)
From Coq Require Permutation.
From Verif Require Import Base Crypto Utf8.

(** mod.rs L350-351 *)
Inductive res_type := RImage | RSound | RFont | RCustomIcon.

(** mod.rs L296-326. A [PathBuf] is modelled by its text (unix, valid UTF-8), see [components]. *)
Inductive res_wrapper :=
| WPath (path : str)
| WStringId (id : str) (full_name : str) (t : res_type)
| WU32Id (id : N) (full_name : str) (t : res_type).

(** mod.rs L37-49 *)
Record raw_project := {
  rp_project : str; rp_file : str; rp_library : str; rp_resource : str; rp_view : str; rp_logic : str;
  rp_resource_files : option (list res_wrapper)
}.

(** mod.rs L87-92 and L115-120, the [decrypt!] macro *)
Definition decrypt_text (data : list N) : res crypto_error str :=
  let* plain := decrypt_sw_encrypted data in
  match utf8_decode plain with Some s => Ok s | None => Err FromUtf8Error end.

(** mod.rs L94-102 and L122-130: the fields are evaluated in this order *)
Definition from_encrypted_with (rf : option (list res_wrapper)) (project file library resource view logic : list N)
  : res crypto_error raw_project :=
  let* p := decrypt_text project in
  let* f := decrypt_text file in
  let* l := decrypt_text library in
  let* r := decrypt_text resource in
  let* v := decrypt_text view in
  let* g := decrypt_text logic in
  Ok {| rp_project := p; rp_file := f; rp_library := l; rp_resource := r; rp_view := v; rp_logic := g;
        rp_resource_files := rf |}.
(** mod.rs L78-103 *)
Definition from_encrypted project file library resource view logic (resource_files : list res_wrapper) :=
  from_encrypted_with (Some resource_files) project file library resource view logic.
(** mod.rs L107-131 *)
Definition from_encrypted_wo_res project file library resource view logic :=
  from_encrypted_with None project file library resource view logic.

(** ** Paths: [std::path::Path::components] on unix: empty and (inner) "." components are skipped *)
Inductive comp := RootDir | CurDir | ParentDir | Normal (s : str).
Definition SLASH : char := 47.
Definition comp_of (s : str) : list comp :=
  if str_eqb s [] then [] else if str_eqb s (lit ".") then []
  else if str_eqb s (lit "..") then [ParentDir] else [Normal s].
Definition components (p : str) : list comp :=
  match split_on SLASH p with
  | [] => []
  | h :: t =>
    (match p with
     | [] => []
     | _ => if str_eqb h [] then [RootDir] else if str_eqb h (lit ".") then [CurDir] else comp_of h
     end) ++ flat_map comp_of t
  end.
(** [Path::parent] on components *)
Definition parent_of (cs : list comp) : option (list comp) :=
  match rev cs with
  | [] => None
  | RootDir :: _ => None
  | _ :: r => Some (rev r)
  end.
(** [Path::file_name] *)
Definition file_name_of (cs : list comp) : option str :=
  match rev cs with Normal s :: _ => Some s | _ => None end.

(** mod.rs L329-338; panics on paths without file name *)
Definition get_full_name {E} (w : res_wrapper) : res E str :=
  match w with
  | WPath p => unwrap (file_name_of (components p))
  | WStringId _ n _ => Ok n
  | WU32Id _ n _ => Ok n
  end.

(** mod.rs L356-362. [HashMap]s are modelled by association lists; their iteration order is
    unspecified (see [res_files_into]). *)
Record res_files := {
  rf_custom_icon : option res_wrapper;
  rf_images : smap res_wrapper; rf_sounds : smap res_wrapper; rf_fonts : smap res_wrapper
}.
(** mod.rs L458-466 *)
Definition res_files_default : res_files :=
  {| rf_custom_icon := None; rf_images := []; rf_sounds := []; rf_fonts := [] |}.

(** mod.rs L431-440 *)
Inductive res_files_error := FileDoesntExist (path : str) | InvalidPath (path : str).

(** the [insert]s of mod.rs L396-421 *)
Definition rf_put (t : res_type) (name : str) (w : res_wrapper) (r : res_files) : res_files :=
  match t with
  | RImage => {| rf_custom_icon := rf_custom_icon r; rf_images := sinsert name w (rf_images r);
                 rf_sounds := rf_sounds r; rf_fonts := rf_fonts r |}
  | RSound => {| rf_custom_icon := rf_custom_icon r; rf_images := rf_images r;
                 rf_sounds := sinsert name w (rf_sounds r); rf_fonts := rf_fonts r |}
  | RFont => {| rf_custom_icon := rf_custom_icon r; rf_images := rf_images r;
                rf_sounds := rf_sounds r; rf_fonts := sinsert name w (rf_fonts r) |}
  | RCustomIcon => {| rf_custom_icon := Some w; rf_images := rf_images r;
                      rf_sounds := rf_sounds r; rf_fonts := rf_fonts r |}
  end.
(** mod.rs L396-403 *)
Definition type_of_folder (s : str) : option res_type :=
  if str_eqb s (lit "images") then Some RImage
  else if str_eqb s (lit "sounds") then Some RSound
  else if str_eqb s (lit "fonts") then Some RFont
  else if str_eqb s (lit "icons") then Some RCustomIcon
  else None.
(** mod.rs L373-424, one iteration; [exists_] says which paths exist *)
Definition rf_step (exists_ : str -> bool) (r : res_files) (w : res_wrapper) : res res_files_error res_files :=
  match w with
  | WPath p =>
    if negb (exists_ p) then Err (FileDoesntExist p)
    else
      let* p1 := ok_or (InvalidPath p) (parent_of (components p)) in
      let* p2 := ok_or (InvalidPath p) (parent_of p1) in
      let* folder := ok_or (InvalidPath p) (file_name_of p2) in
      let* name := ok_or (InvalidPath p) (file_name_of (components p)) in
      let* t := ok_or (InvalidPath p) (type_of_folder folder) in
      Ok (rf_put t name w r)
  | WStringId _ n t => Ok (rf_put t n w r)
  | WU32Id _ n t => Ok (rf_put t n w r)
  end.
Fixpoint rf_collect (exists_ : str -> bool) (ws : list res_wrapper) (r : res_files) : res res_files_error res_files :=
  match ws with
  | [] => Ok r
  | w :: rest => let* r' := rf_step exists_ r w in rf_collect exists_ rest r'
  end.
(** mod.rs L364-428 *)
Definition res_files_try_from (exists_ : str -> bool) (ws : list res_wrapper) : res res_files_error res_files :=
  rf_collect exists_ ws res_files_default.

(** mod.rs L442-456. The order in which a [HashMap] yields its values is arbitrary: the three
    permutations are parameters of the relation. *)
Definition res_files_into (r : res_files) (out : list res_wrapper) : Prop :=
  exists im so fo,
    Permutation.Permutation im (map snd (rf_images r)) /\ Permutation.Permutation so (map snd (rf_sounds r)) /\
    Permutation.Permutation fo (map snd (rf_fonts r)) /\
    out = (match rf_custom_icon r with Some w => [w] | None => [] end) ++ im ++ so ++ fo.
