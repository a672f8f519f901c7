(** Model of /repo/src/parser/mod.rs L133-264: a parsed project and its six data files. *)
From Verif Require Import Base M_Raw M_Project M_File M_Library M_Resource M_View M_Logic.

(** parser/mod.rs L137-149 *)
Record parsed_project := {
  pp_project : project; pp_file : file; pp_library : library; pp_resource : resource; pp_view : view; pp_logic : logic;
  pp_resource_files : option res_files
}.
(** parser/mod.rs L242-264 *)
Inductive parse_error :=
| PeProject (e : unit) | PeFile (e : file_error) | PeLibrary (e : library_error) | PeResource (e : resource_error)
| PeView (e : view_parse_error) | PeLogic (e : logic_error) | PeResourceFiles (e : res_files_error).
(** parser/mod.rs L153-178. [mv] is the parameter of the linked hash map (see [entry_update] in M_Logic.v), [exists_]
    the file system *)
Definition parse_from (mv : bool) (exists_ : str -> bool) (r : raw_project) : res parse_error parsed_project :=
  let* p := map_err PeProject (project_parse (rp_project r)) in
  let* f := map_err PeFile (file_parse (rp_file r)) in
  let* l := map_err PeLibrary (library_parse (rp_library r)) in
  let* s := map_err PeResource (resource_parse (rp_resource r)) in
  let* v := map_err PeView (view_parse (rp_view r)) in
  let* g := map_err PeLogic (logic_parse mv (rp_logic r)) in
  let* rf := map_err PeResourceFiles (match rp_resource_files r with
                                      | None => Ok None
                                      | Some ws => rmap Some (res_files_try_from exists_ ws)
                                      end) in
  Ok {| pp_project := p; pp_file := f; pp_library := l; pp_resource := s; pp_view := v; pp_logic := g; pp_resource_files := rf |}.
(** parser/mod.rs L181-195, L198-211 *)
Definition parse_project mv exists_ (project file library resource view logic : str) (resource_files : list res_wrapper) :=
  parse_from mv exists_ {| rp_project := project; rp_file := file; rp_library := library; rp_resource := resource;
                           rp_view := view; rp_logic := logic; rp_resource_files := Some resource_files |}.
Definition parse_wo_res mv exists_ (project file library resource view logic : str) :=
  parse_from mv exists_ {| rp_project := project; rp_file := file; rp_library := library; rp_resource := resource;
                           rp_view := view; rp_logic := logic; rp_resource_files := None |}.
(** parser/mod.rs L214-240 without the resource files. Only the project file can fail: [date_ser] panics outside
    chrono's range; serialising the records of the other files never fails. *)
Definition data_files (p : parsed_project) : res unit (str * str * str * str * str * str) :=
  let* t := project_reconstruct (pp_project p) in
  Ok (t, file_reconstruct (pp_file p), library_reconstruct (pp_library p), resource_reconstruct (pp_resource p),
      view_reconstruct (pp_view p), logic_reconstruct (pp_logic p)).
(** parser/mod.rs L214-240, [TryInto]; the order of the resource files is unspecified ([res_files_into] in M_Raw.v) *)
Definition into_raw (p : parsed_project) (r : raw_project) : Prop :=
  data_files p = Ok (rp_project r, rp_file r, rp_library r, rp_resource r, rp_view r, rp_logic r) /\
  match pp_resource_files p with
  | None => rp_resource_files r = None
  | Some f => exists ws, rp_resource_files r = Some ws /\ res_files_into f ws
  end.
