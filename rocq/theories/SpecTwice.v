(** Small specification of saving and loading a project any number of times, used in the statements of P_Twice.v. *)
From Verif Require Import Base Str M_Raw M_Parsed A_Screen A_Project SpecProject SpecSave ResFilesProofs P_Parsed P_Save.

(** one conversion to the parsed form and back, whatever numbers are drawn for the resources (api/mod.rs L310-450, L487-675) *)
Definition converted (p p' : sw_project) : Prop := exists rnd q, project_into p = Ok q /\ project_try_from rnd q = Ok p'.
(** one way through the six data files; the order in which maps are written is not determined *)
Definition refiled (mv : bool) (ex : str -> bool) (p p' : sw_project) : Prop := exists rnd r, project_into_raw p r /\ loaded mv ex rnd r p'.
(** [n] times *)
Inductive times {A : Type} (R : A -> A -> Prop) : nat -> A -> A -> Prop :=
| t_zero x : times R 0 x x
| t_more n x y z : R x y -> times R n y z -> times R (S n) x z.
(** the flag that says how resources are found turned round *)
Definition turned (p : sw_project) : sw_project :=
  {| sp_custom_icon := sp_custom_icon p; sp_metadata := sp_metadata p; sp_colors := sp_colors p; sp_screens := sp_screens p;
     sp_custom_views := sp_custom_views p; sp_libraries := sp_libraries p; sp_resources := sp_resources p; sp_automatic := negb (sp_automatic p) |}.
(** an icon that is written to a file is found there again *)
Definition icon_filed (ex : str -> bool) (p : sw_project) : Prop :=
  sp_automatic p = true -> forall w, sp_custom_icon p = Some w -> exists n, wrapper_class ex w RCustomIcon n.
