(** Blocks whose words cannot make the reader panic, used in the statements of P_Calm.v. *)
From Verif Require Import Base A_Block A_View A_Screen A_Project SpecBlock SpecScreen SpecProject SpecSettle SpecSpread SpecResave.

(** no word of a text, nor of a name after its first word, is '%', '%m' without a name or '%' with a character of three bytes and a dot;
    the first word of the name of a menu is not empty *)
Definition calm_words (ws : list str) : Prop := Forall (fun w => ~ bad_word w) ws.
Definition item_calm (i : spec_item ablock) : Prop :=
  match i with
  | SText t => calm_words (parts t)
  | SParam (ArgMenu n _) => first_part n <> [] /\ calm_words (other_parts n)
  | SParam a => match arg_name a with Some x => calm_words (other_parts x) | None => True end
  end.
Definition items_calm (l : list (spec_item ablock)) : Prop := Forall item_calm l.
Definition block_calm (b : ablock) : Prop := items_calm (ab_content b).
(** all blocks of a code *)
Definition code_calm (l : blocks) : Prop := Forall (everywhere block_calm) l.
(** all code and all specs of moreblocks *)
Definition screen_calm (s : screen) : Prop := Forall code_calm (screen_codes s) /\ Forall (fun kv => items_calm (am_spec (snd kv))) (sc_more_blocks s).
