(** Blocks with the words of their texts as texts of their own, used in the statements of P_Spread.v. *)
From Verif Require Import Base Flt A_Block A_View A_Screen A_Project SpecBlock SpecView SpecScreen SpecProject SpecBack SpecSettle.

(** the words of a text (characterised by C91); the first one and the others *)
Definition parts (t : str) : list str := split_on 32 t.
Definition first_part (t : str) : str := match parts t with w :: _ => w | [] => [] end.
Definition other_parts (t : str) : list str := match parts t with _ :: r => r | [] => [] end.
Section Spread.
  Context (f : ablock -> ablock).
  Definition value_map {T} (v : arg_value ablock T) : arg_value ablock T :=
    match v with ABlock b => ABlock (f b) | AValue t => AValue t | APlaceholder k => APlaceholder k | AEmpty => AEmpty end.
  (** a name ends at the first space, what follows are texts *)
  Definition spread_item (i : spec_item ablock) : list (spec_item ablock) :=
    match i with
    | SText t => map SText (parts t)
    | SParam (ArgString n v) => SParam (ArgString (option_map first_part n) (value_map v)) :: match n with Some x => map SText (other_parts x) | None => [] end
    | SParam (ArgNumber n v) => SParam (ArgNumber (option_map first_part n) (value_map v)) :: match n with Some x => map SText (other_parts x) | None => [] end
    | SParam (ArgBoolean n v) => SParam (ArgBoolean (option_map first_part n) (value_map v)) :: match n with Some x => map SText (other_parts x) | None => [] end
    | SParam (ArgMenu n v) => SParam (ArgMenu (first_part n) (value_map v)) :: map SText (other_parts n)
    end.
End Spread.
Fixpoint spread (b : ablock) : ablock :=
  match b with
  | MkBlock s1 s2 col op items ty => MkBlock (option_map (map spread) s1) (option_map (map spread) s2) col op (flat_map (spread_item spread) items) ty
  end.
(** as [block_plain] (SpecBack), but with any texts and names that have no word with a leading '%' and, for a name, no space in front *)
Definition words_ok (ws : list str) : Prop := Forall (fun w => ~ is_param w) ws.
Definition name_loose (n : option str) : Prop := match n with Some x => first_part x <> [] /\ words_ok (other_parts x) | None => True end.
Definition item_loose (i : spec_item ablock) : Prop :=
  match i with
  | SText t => words_ok (parts t)
  | SParam a => name_loose (arg_name a) /\
    match a with
    | ArgString _ (AValue s) => forall r, s <> 64 :: r
    | ArgNumber _ (AValue x) => canonical F64 x = true
    | ArgMenu _ (ABlock _) => False
    | _ => True
    end
  end.
Definition block_loose (b : ablock) : Prop := Forall item_loose (ab_content b).

(** ** Projects *)
Definition spread_screen (s : screen) : screen :=
  {| sc_layout_name := sc_layout_name s; sc_java_name := sc_java_name s; sc_layout := sc_layout s; sc_variables := sc_variables s;
     sc_list_variables := sc_list_variables s;
     sc_more_blocks := map (fun kv => (fst kv, {| am_name := am_name (snd kv); am_spec := flat_map (spread_item spread) (am_spec (snd kv)); am_code := map spread (am_code (snd kv)) |})) (sc_more_blocks s);
     sc_components := sc_components s;
     sc_events := map (fun e => {| ae_name := ae_name e; ae_type := ae_type e; ae_code := map spread (ae_code e) |}) (sc_events s);
     sc_fab := sc_fab s; sc_fullscreen := sc_fullscreen s; sc_toolbar := sc_toolbar s; sc_drawer := sc_drawer s; sc_fab_enabled := sc_fab_enabled s;
     sc_orientation := sc_orientation s; sc_theme := sc_theme s; sc_keyboard := sc_keyboard s |}.
Definition spread_project (p : sw_project) : sw_project := set_screens (map spread_screen (sp_screens p)) p.
(** as [code_plain], [plain_screen] and [plain_project] (SpecSettle), with looser texts and names *)
Definition code_loose (l : blocks) : Prop :=
  9 + N.of_nat (blocks_size l) < 2 ^ 31 /\ Forall no_holes l /\ Forall (fun b => Forall block_loose (read_again b)) l.
Definition spec_loose (i : spec_item ablock) : Prop :=
  match i with SText t => words_ok (parts t) | SParam a => name_loose (arg_name a) /\ is_empty a end.
Definition loose_screen (s : screen) : Prop :=
  sc_java_name s = view_name_to_logic (sc_layout_name s) /\ NoDup (map fst (sc_more_blocks s)) /\ NoDup (map fst (sc_components s)) /\
  Forall (fun kv => am_name (snd kv) = fst kv /\ am_spec (snd kv) <> [] /\ Forall spec_loose (am_spec (snd kv))) (sc_more_blocks s) /\
  Forall code_loose (screen_codes s) /\ shared_empty s /\ on_create_first (sc_events s) /\ layout_ok (sc_layout s).
Definition loose_project (p : sw_project) : Prop :=
  Forall loose_screen (sp_screens p) /\ Forall (fun c => layout_ok (cv_layout c)) (sp_custom_views p) /\
  NoDup (map sc_layout_name (sp_screens p) ++ map cv_res_name (sp_custom_views p)) /\ NoDup (map sc_java_name (sp_screens p)).
