(** What the example programs print, used in the statements of P_Tools.v. *)
From Verif Require Import Base Spec SpecJson SpecNumber M_Resource M_View M_Logic M_File A_Block A_Screen A_Project.
From Coq Require Import ZArith.

(** lines, each ended by a newline *)
Definition text_of_lines (ls : list str) : str := concat (map (fun l => l ++ [10]) ls).
(** a number in decimal, without superfluous zeros *)
Definition numeral (n : N) (t : str) : Prop := digits t /\ decimal t = Z.of_N n /\ (forall r, t = 48 :: r -> r = []).

(** ** Command lines *)
(** the input and output file of [encrypt] *)
Inductive encrypt_args : list str -> str -> str -> Prop :=
| ea_default prog input : encrypt_args [prog; input] input (input ++ lit "_enc")
| ea_given prog input output : encrypt_args [prog; input; output] input output.
(** the text file that a [parse_...] program is told to read *)
Definition names_text (args : list str) (f : str -> option (list N)) (encode : str -> list N) (t : str) : Prop :=
  exists prog path rest, args = prog :: path :: rest /\ string_ok t /\ f path = Some (encode t).

(** ** Listings *)
Definition resource_item_line (i : resource_item) : str := lit " - " ++ ri_name i ++ lit " - " ++ ri_full_name i.
Definition resource_lines (r : resource) : list str :=
  [[]; lit "Fonts:"] ++ map resource_item_line (rs_fonts r) ++
  [[]; lit "Images:"] ++ map resource_item_line (rs_images r) ++
  [[]; lit "Sounds:"] ++ map resource_item_line (rs_sounds r).
(** the views of a layout are numbered from 0 *)
Definition view_line (number : nat) (v : android_view) (line : str) : Prop :=
  exists n t, numeral (N.of_nat number) n /\ numeral (av_type v) t /\
    line = lit "  " ++ n ++ lit ". id: " ++ av_id v ++ lit ", type: " ++ t.
Definition numbered {A} (line : nat -> A -> str -> Prop) (l : list A) (ls : list str) : Prop :=
  length ls = length l /\ forall i x t, nth_error l i = Some x -> nth_error ls i = Some t -> line i x t.
Definition layout_lines (kv : str * layout) (ls : list str) : Prop :=
  exists vs, numbered view_line (snd kv) vs /\ ls = (lit " Views of layout " ++ fst kv ++ lit ":") :: vs ++ [[]].
Definition view_file_lines (v : view) (ls : list str) : Prop :=
  exists parts, Forall2 layout_lines (vw_layouts v) parts /\ ls = lit "Screens ==" :: concat parts.
(** the members of an optional section *)
Definition members {A} (o : option (list A)) (n : str) : Prop :=
  numeral (match o with Some l => N.of_nat (length l) | None => 0 end) n.
Definition screen_line (kv : str * screen_logic) (line : str) : Prop :=
  exists v lv c b e m, let s := snd kv in
    members (sl_variables s) v /\ members (sl_list_variables s) lv /\ members (sl_components s) c /\
    members (Some (sl_block_containers s)) b /\ members (sl_events s) e /\ members (sl_more_blocks s) m /\
    line = lit " - " ++ fst kv ++ lit ": has " ++ v ++ lit " variables, " ++ lv ++ lit " list variables, " ++
           c ++ lit " components, " ++ b ++ lit " block containers, " ++ e ++ lit " events, " ++ m ++ lit " moreblocks".
Definition logic_lines (l : logic) (ls : list str) : Prop :=
  exists parts, Forall2 screen_line l parts /\ ls = lit "Screens:" :: parts.
Definition file_lines (dbg : file_item -> str) (x : file) : list str :=
  let line i := lit " - " ++ fi_filename i ++ lit ": " ++ dbg i in
  [lit "Activities:"] ++ map line (f_activities x) ++ [[]; lit "Custom views:"] ++ map line (f_custom_views x).

(** ** The demonstration program *)
Definition param_text (letter : string) (name : option str) : str :=
  lit "%" ++ lit letter ++ match name with Some n => lit "." ++ n | None => [] end.
Definition word (i : spec_item ablock) : str :=
  match i with
  | SText s => s
  | SParam (ArgString n _) => param_text "s" n
  | SParam (ArgNumber n _) => param_text "d" n
  | SParam (ArgBoolean n _) => param_text "b" n
  | SParam (ArgMenu n _) => param_text "m" (Some n)
  end.
(** words separated by spaces *)
Inductive spaced : list str -> str -> Prop :=
| spaced_nil : spaced [] []
| spaced_one w : spaced [w] w
| spaced_cons w ws t : ws <> [] -> spaced ws t -> spaced (w :: ws) (w ++ lit " " ++ t).
Definition block_label (b : ablock) (t : str) : Prop :=
  exists c, spaced (map word (ab_content b)) c /\ t = lit "Block #" ++ ab_op_code b ++ lit " opcode " ++ c.
(** A block is a line; what is nested in it comes after it, two spaces further to the right, under a line of its own for
    each nest; an empty line ends a stack of blocks. Blocks in arguments are not listed. *)
Inductive stack_lines : nat -> list ablock -> list str -> Prop :=
| sl_end indent : stack_lines indent [] [[]]
| sl_block indent b r t l1 l2 ls : block_label b t ->
    nest_lines indent "substack1: " (ab_sub_stack1 b) l1 -> nest_lines indent "substack2: " (ab_sub_stack2 b) l2 ->
    stack_lines indent r ls ->
    stack_lines indent (b :: r) ((repeat 32 indent ++ t) :: l1 ++ l2 ++ ls)
with nest_lines : nat -> string -> option (list ablock) -> list str -> Prop :=
| nl_none indent name : nest_lines indent name None []
| nl_some indent name l ls : stack_lines (indent + 2) l ls ->
    nest_lines indent name (Some l) ((repeat 32 indent ++ lit name) :: ls).
Definition event_lines (dbg : event_type -> str) (e : aevent) (ls : list str) : Prop :=
  exists code, stack_lines 8 (ae_code e) code /\
    ls = (lit "      - Event " ++ ae_name e ++ lit ", type: " ++ dbg (ae_type e) ++ lit ", blocks:") :: code.
Definition screen_lines (dbg : event_type -> str) (s : screen) (ls : list str) : Prop :=
  exists parts, Forall2 (event_lines dbg) (sc_events s) parts /\
    ls = (lit "  Screen " ++ sc_layout_name s ++ lit " or " ++ sc_java_name s ++ lit ":") :: lit "    Events:" :: concat parts.
Definition project_lines (dbg : event_type -> str) (p : sw_project) (ls : list str) : Prop :=
  exists parts, Forall2 (screen_lines dbg) (sp_screens p) parts /\ ls = lit "Screens:" :: concat parts.

(** two stacks of blocks with the same labels in the same places *)
Inductive same_shape : list ablock -> list ablock -> Prop :=
| ss_nil : same_shape [] []
| ss_cons b b' r r' t : block_label b t -> block_label b' t ->
    same_nest (ab_sub_stack1 b) (ab_sub_stack1 b') -> same_nest (ab_sub_stack2 b) (ab_sub_stack2 b') ->
    same_shape r r' -> same_shape (b :: r) (b' :: r')
with same_nest : option (list ablock) -> option (list ablock) -> Prop :=
| sn_none : same_nest None None
| sn_some l l' : same_shape l l' -> same_nest (Some l) (Some l').
(** no label has a newline in it *)
Inductive one_line : list ablock -> Prop :=
| ol_nil : one_line []
| ol_cons b r : (forall t, block_label b t -> ~ In 10 t) -> one_line_nest (ab_sub_stack1 b) -> one_line_nest (ab_sub_stack2 b) ->
    one_line r -> one_line (b :: r)
with one_line_nest : option (list ablock) -> Prop :=
| on_none : one_line_nest None
| on_some l : one_line l -> one_line_nest (Some l).
