(** Structs by field name, shared by the record models. *)
From Verif Require Import Base Json.

(** [struct_fields] with Coq string literals for the serialised field names *)
Definition sf (names : list string) (j : json) : option (list (option json)) :=
  struct_fields (map lit names) j.
(** an [Option] field with [skip_serializing_if = "Option::is_none"] *)
Definition e_skip {A} (name : string) (e : A -> json) (o : option A) : list (string * json) :=
  match o with Some a => [(name, e a)] | None => [] end.
(** [serde_json::from_str] / [to_string] of a struct *)
Definition from_str {A} (d : json -> option A) (s : str) : option A := let? j := parse_json s in d j.
Definition to_string {A} (e : A -> json) (a : A) : str := print_json (e a).
