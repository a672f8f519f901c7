(** Where a file lies according to its path, used in the statements of P_Path.v. *)
From Verif Require Import Base M_Raw SpecInto.

(** what separates two names: a slash, possibly after more slashes and dots between them *)
Definition gap (g : str) : Prop := exists s, skipped s /\ g = s ++ [47].
(** one name in a path; "." is not one *)
Definition segment (s : str) : Prop := s <> [] /\ s <> lit "." /\ ~ In 47 s.
(** the file [name] is in some folder in the folder [folder]; what is between them may be ".." *)
Definition lies_in (path folder name : str) : Prop :=
  segment folder /\ folder <> lit ".." /\ segment name /\ name <> lit ".." /\
  exists before g mid g' after, path = before ++ folder ++ g ++ mid ++ g' ++ name ++ after /\
    (before = [] \/ exists a, before = a ++ [47]) /\ gap g /\ segment mid /\ gap g' /\ skipped after.
(** the folders of the types of resources *)
Definition folder_of (t : res_type) : str :=
  match t with RImage => lit "images" | RSound => lit "sounds" | RFont => lit "fonts" | RCustomIcon => lit "icons" end.
