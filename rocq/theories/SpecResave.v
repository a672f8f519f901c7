(** What every block that has been read is like, used in the statements of P_Resave.v. *)
From Verif Require Import Base A_Block A_View A_Screen A_Project SpecBlock SpecView SpecScreen SpecProject SpecBack SpecSettle.

(** [P] holds of a block and of all blocks in its arguments and sub stacks *)
Fixpoint everywhere (P : ablock -> Prop) (b : ablock) : Prop :=
  match b with
  | MkBlock s1 s2 _ _ items _ => P b /\ items_all (everywhere P) items /\ sub_all (everywhere P) s1 /\ sub_all (everywhere P) s2
  end.
(** the values that reading gives: texts, numbers and booleans or blocks, never nothing and never a reference *)
Definition filled {T} (v : arg_value ablock T) : Prop := match v with AValue _ | ABlock _ => True | _ => False end.
Definition item_filled (i : spec_item ablock) : Prop :=
  match i with
  | SText _ => True
  | SParam (ArgString _ v) => filled v
  | SParam (ArgNumber _ v) => filled v
  | SParam (ArgBoolean _ v) => filled v
  | SParam (ArgMenu _ v) => filled v
  end.
Definition as_read (b : ablock) : Prop := ab_content b <> [] /\ block_plain b /\ Forall item_filled (ab_content b).
(** no block that is read again has the type of a list *)
Definition no_lists (l : blocks) : Prop := Forall (fun b => Forall (fun y => not_list (ab_type y)) (read_again b)) l.

(** ** Projects that have been loaded *)
(** what [plain_screen] and [plain_project] ask for besides the code *)
Definition arranged_screen (s : screen) : Prop :=
  sc_java_name s = view_name_to_logic (sc_layout_name s) /\ Forall (fun l => 9 + N.of_nat (blocks_size l) < 2 ^ 31) (screen_codes s) /\
  shared_empty s /\ on_create_first (sc_events s) /\ layout_ok (sc_layout s).
Definition arranged (p : sw_project) : Prop :=
  Forall arranged_screen (sp_screens p) /\ Forall (fun c => layout_ok (cv_layout c)) (sp_custom_views p) /\
  NoDup (map sc_layout_name (sp_screens p) ++ map cv_res_name (sp_custom_views p)) /\ NoDup (map sc_java_name (sp_screens p)).
Definition project_no_lists (l : list screen) : Prop := Forall (fun s => Forall no_lists (screen_codes s)) l.
