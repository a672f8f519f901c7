(** Proofs about blocks with the words of their texts as texts of their own. *)
From Verif Require Import Base Str Flt M_Logic M_Parsed A_Block A_View A_Screen A_Project SpecBlock SpecView SpecScreen SpecProject SpecSave BlockContentProofs BlockWriteProofs P_Block BackProofs SpecBack SpecSettle SpecSpread.

Lemma parts_join t : join 32 (parts t) = t.
Proof. apply join_split. Qed.
Lemma parts_first t : parts t = first_part t :: other_parts t.
Proof. unfold first_part, other_parts. pose proof (split_on_nonnil 32 t) as N. fold (parts t) in N. destruct (parts t); [congruence|reflexivity]. Qed.
Lemma item_words f i : exists w ws, map item_spec (spread_item f i) = w :: ws /\ join 32 (w :: ws) = item_spec i.
Proof.
  assert (S : forall l, map (@item_spec ablock) (map SText l) = l) by (intros l; rewrite map_map; apply map_id).
  assert (P : forall p x, join 32 ((p ++ first_part x) :: other_parts x) = p ++ x).
  { intros p x. rewrite <- (parts_join x) at 3. rewrite (parts_first x). destruct (other_parts x); [reflexivity|]. cbn [join]. now rewrite app_assoc. }
  destruct i as [t|[n v|n v|n v|n v]]; cbn [spread_item map]; rewrite ?S.
  - rewrite (parts_first t). do 2 eexists. split; [reflexivity|]. rewrite <- parts_first. apply parts_join.
  - destruct n as [x|]; cbn [option_map item_spec arg_spec map]; rewrite ?S; do 2 eexists; (split; [reflexivity|]); [|reflexivity]. exact (P (lit "%s.") x).
  - destruct n as [x|]; cbn [option_map item_spec arg_spec map]; rewrite ?S; do 2 eexists; (split; [reflexivity|]); [|reflexivity]. exact (P (lit "%d.") x).
  - destruct n as [x|]; cbn [option_map item_spec arg_spec map]; rewrite ?S; do 2 eexists; (split; [reflexivity|]); [|reflexivity]. exact (P (lit "%b.") x).
  - cbn [item_spec arg_spec]. do 2 eexists; (split; [reflexivity|]). exact (P (lit "%m.") n).
Qed.
Lemma join_cons c w ws r : r <> [] -> join c ((w :: ws) ++ r) = join c (w :: ws) ++ c :: join c r.
Proof.
  intros N. revert w. induction ws as [|x ws IH]; intros w.
  - cbn [app]. destruct r; [congruence|reflexivity].
  - change (join c (w :: (x :: ws) ++ r) = join c (w :: x :: ws) ++ c :: join c r). specialize (IH x). cbn [app] in *. cbn [join]. cbn [join] in IH. rewrite IH, <- app_assoc. reflexivity.
Qed.
Lemma spread_text f items : content_to_string (flat_map (spread_item f) items) = content_to_string items.
Proof.
  rewrite !content_to_string_join. change CH_SPACE with 32. induction items as [|i items IH]; [reflexivity|]. cbn [flat_map map]. rewrite map_app.
  destruct (item_words f i) as (w & ws & E & J). rewrite E. destruct items as [|j items].
  - cbn [flat_map map]. rewrite app_nil_r. exact J.
  - rewrite join_cons; [rewrite J, IH; reflexivity|]. cbn [flat_map]. rewrite map_app. destruct (item_words f j) as (w' & ws' & E' & _). rewrite E'. discriminate.
Qed.

(** ** What is written is the same *)
Definition same_conv (b : ablock) : Prop := forall c last, convert_block (spread b) c last = convert_block b c last.
Lemma texts_conv ts r c : conv_args convert_block (map SText ts ++ r) c = conv_args convert_block r c.
Proof. induction ts as [|t ts IH]; [reflexivity|]. exact IH. Qed.
Lemma value_conv {T} (g : T -> str) (v : arg_value ablock T) c : value_all same_conv v -> conv_value convert_block g (value_map spread v) c = conv_value convert_block g v c.
Proof. destruct v as [t|b|k|]; cbn [value_all value_map conv_value]; intros H; auto. now rewrite H. Qed.
Lemma args_conv items : items_all same_conv items -> forall c, conv_args convert_block (flat_map (spread_item spread) items) c = conv_args convert_block items c.
Proof.
  induction items as [|i items IH]; cbn [items_all flat_map]; [reflexivity|]. intros [Hi H] c. specialize (IH H).
  assert (A : forall a a' ts, conv_arg convert_block a' c = conv_arg convert_block a c ->
    conv_args convert_block ((SParam a' :: map SText ts) ++ flat_map (spread_item spread) items) c = conv_args convert_block (SParam a :: items) c).
  { intros a a' ts E. cbn [app conv_args]. rewrite E. destruct (conv_arg convert_block a c) as [[[p bs] c1]| |]; cbn [bind]; try reflexivity. now rewrite texts_conv, IH. }
  assert (X : forall n : option str, match n with Some x => map SText (other_parts x) | None => [] end = map (@SText ablock) match n with Some x => other_parts x | None => [] end) by (intros [x|]; reflexivity).
  destruct i as [t|[n v|n v|n v|n v]]; cbn [spread_item item_all] in *.
  - rewrite texts_conv. apply IH.
  - rewrite X. apply A. cbn [conv_arg]. now apply value_conv.
  - rewrite X. apply A. cbn [conv_arg]. now apply value_conv.
  - rewrite X. apply A. cbn [conv_arg]. pose proof (value_conv bool_to_string v c Hi) as E. destruct v as [t|b|k|]; cbn [value_map] in *; auto.
  - apply A. cbn [conv_arg]. now apply value_conv.
Qed.
Lemma stack_conv l : stack_all same_conv l -> forall c, conv_stack convert_block (map spread l) c = conv_stack convert_block l c.
Proof.
  induction l as [|b l IH]; cbn [stack_all map]; [reflexivity|]. intros [Hb H] c. cbn [conv_stack]. rewrite Hb. replace (match map spread l with [] => true | _ => false end) with (match l with [] => true | _ => false end) by (destruct l; reflexivity).
  destruct (convert_block b c _) as [[x c1]| |]; cbn [bind]; try reflexivity. now rewrite IH.
Qed.
Lemma sub_conv s c : sub_all same_conv s -> conv_sub convert_block (option_map (map spread) s) c = conv_sub convert_block s c.
Proof. destruct s as [l|]; cbn [sub_all option_map conv_sub]; [|reflexivity]. intros H. now rewrite stack_conv. Qed.
Lemma spread_conv b : same_conv b.
Proof.
  induction b as [s1 s2 col op items ty Q1 Q2 Q] using ablock_induct. intros c last. cbn [spread convert_block]. rewrite args_conv by auto.
  destruct (conv_args convert_block items (c + 1)) as [[[ps bs] c1]| |]; cbn [bind]; try reflexivity. rewrite sub_conv by auto.
  destruct (conv_sub convert_block s1 c1) as [[[z1 b1] c2]| |]; cbn [bind]; try reflexivity. rewrite sub_conv by auto.
  destruct (conv_sub convert_block s2 c2) as [[[z2 b2] c3]| |]; cbn [bind]; try reflexivity.
  replace (content_to_string (fst (take_args (flat_map (spread_item spread) items)))) with (content_to_string (fst (take_args items))); [reflexivity|].
  rewrite !content_to_string_join, !map_item_spec, <- !content_to_string_join. symmetry. apply spread_text.
Qed.
Lemma spread_into l : blocks_into (map spread l) = blocks_into l.
Proof. unfold blocks_into, to_block_container. rewrite stack_conv; [reflexivity|]. apply stack_all_intro, spread_conv. Qed.

(** ** Which blocks are read again *)
Lemma stack_last_spread l : stack_all (fun b => last_block (spread b) = spread (last_block b)) l -> stack_last last_block (map spread l) = option_map spread (stack_last last_block l).
Proof. induction l as [|b l IH]; cbn [stack_all map stack_last]; [reflexivity|]. intros [H1 H]. rewrite (IH H), H1. destruct (stack_last last_block l); reflexivity. Qed.
Lemma sub_last_spread s : sub_all (fun b => last_block (spread b) = spread (last_block b)) s -> sub_last last_block (option_map (map spread) s) = option_map spread (sub_last last_block s).
Proof. destruct s as [l|]; cbn [sub_all option_map sub_last]; [|reflexivity]. apply stack_last_spread. Qed.
Lemma boolean_spread t : spread (boolean_block t) = boolean_block t.
Proof. destruct t; reflexivity. Qed.
Lemma items_last_app f a b : items_last f (a ++ b) = or_else (items_last f b) (items_last f a).
Proof. induction a as [|i a IH]; cbn [app items_last]; [destruct (items_last f b); reflexivity|]. rewrite IH. destruct (items_last f b), (items_last f a); reflexivity. Qed.
Lemma texts_last f ts : items_last f (map SText ts) = None.
Proof. induction ts as [|t ts IH]; cbn [map items_last]; [reflexivity|]. now rewrite IH. Qed.
Lemma named_last f i (n : option str) : items_last f (i :: match n with Some x => map SText (other_parts x) | None => [] end) = item_last f i.
Proof. cbn [items_last]. destruct n; cbn [items_last]; rewrite ?texts_last; reflexivity. Qed.
Lemma items_last_spread items : items_all (fun b => last_block (spread b) = spread (last_block b)) items ->
  items_last last_block (flat_map (spread_item spread) items) = option_map spread (items_last last_block items).
Proof.
  induction items as [|i items IH]; cbn [items_all flat_map]; [reflexivity|]. intros [Hi H]. rewrite items_last_app, (IH H). cbn [items_last].
  assert (E : items_last last_block (spread_item spread i) = option_map spread (item_last last_block i)).
  { destruct i as [t|[n v|n v|n v|n v]]; cbn [spread_item item_all] in *.
    - apply texts_last.
    - rewrite named_last. destruct v; cbn [value_map value_all item_last value_last option_map] in *; congruence.
    - rewrite named_last. destruct v; cbn [value_map value_all item_last value_last option_map] in *; congruence.
    - rewrite named_last. destruct v; cbn [value_map value_all item_last value_last option_map] in *; rewrite ?boolean_spread; congruence.
    - cbn [items_last]. rewrite texts_last. destruct v; cbn [or_else value_map value_all item_last value_last option_map] in *; congruence. }
  rewrite E. destruct (items_last last_block items), (item_last last_block i); reflexivity.
Qed.
Lemma last_spread b : last_block (spread b) = spread (last_block b).
Proof.
  induction b as [s1 s2 col op items ty Q1 Q2 Q] using ablock_induct. rewrite !last_block_below. unfold below. cbn [spread ab_sub_stack1 ab_sub_stack2 ab_content].
  rewrite !sub_last_spread, items_last_spread by auto. destruct (sub_last last_block s2), (sub_last last_block s1), (items_last last_block items); reflexivity.
Qed.
Lemma sub_last_spreads s : sub_last last_block (option_map (map spread) s) = option_map spread (sub_last last_block s).
Proof. apply sub_last_spread, sub_all_intro, last_spread. Qed.
Lemma texts_read ts : flat_map item_read (map SText ts) = [].
Proof. induction ts as [|t ts IH]; [reflexivity|exact IH]. Qed.
Lemma read_again_spread b : read_again (spread b) = map spread (read_again b).
Proof.
  destruct b as [s1 s2 col op items ty]. unfold read_again. cbn [spread ab_sub_stack1 ab_sub_stack2 ab_content map]. rewrite !map_app, !sub_last_spreads. f_equal. f_equal; [destruct (sub_last last_block s1); reflexivity|]. f_equal; [destruct (sub_last last_block s2); reflexivity|].
  induction items as [|i items IH]; [reflexivity|]. cbn [flat_map]. rewrite flat_map_app, map_app, IH. f_equal.
  assert (X : forall a (n : option str), flat_map item_read (SParam a :: match n with Some x => map SText (other_parts x) | None => [] end) = item_read (SParam a)).
  { intros a n. cbn [flat_map]. destruct n; rewrite ?texts_read; apply app_nil_r. }
  destruct i as [t|[n v|n v|n v|n v]]; cbn [spread_item]; rewrite ?X.
  - apply texts_read.
  - destruct v; cbn [value_map item_read map]; rewrite ?last_spread; reflexivity.
  - destruct v; cbn [value_map item_read map]; rewrite ?last_spread; reflexivity.
  - destruct v; cbn [value_map item_read map]; rewrite ?last_spread; reflexivity.
  - cbn [flat_map]. rewrite texts_read. reflexivity.
Qed.

(** ** Which conditions they meet *)
Lemma parts_nospace t : Forall (fun w => ~ In 32 w) (parts t).
Proof. apply split_on_In. Qed.
Lemma texts_plain ts : Forall (fun w => ~ In 32 w) ts -> (Forall item_plain (map SText ts) <-> words_ok ts).
Proof.
  intros F. unfold words_ok. rewrite Forall_map. split; intros H; rewrite Forall_forall in *; intros w I; specialize (H w I); [apply H|]. split; [now apply F|exact H].
Qed.
Lemma first_nospace t : ~ In 32 (first_part t).
Proof. pose proof (parts_nospace t) as H. rewrite parts_first in H. now apply Forall_inv in H. Qed.
Lemma others_nospace t : Forall (fun w => ~ In 32 w) (other_parts t).
Proof. pose proof (parts_nospace t) as H. rewrite parts_first in H. now apply Forall_inv_tail in H. Qed.
Lemma plain_item_spread i : Forall item_plain (spread_item spread i) <-> item_loose i.
Proof.
  assert (A : forall (n : option str), Forall item_plain match n with Some x => map SText (other_parts x) | None => [] end <-> match n with Some x => words_ok (other_parts x) | None => True end).
  { intros [x|]; [apply texts_plain, others_nospace|]. split; auto. }
  assert (B : forall n, name_loose n <-> name_ok (option_map first_part n) /\ match n with Some x => words_ok (other_parts x) | None => True end).
  { intros [x|]; cbn [name_loose option_map name_ok]; [|tauto]. pose proof (first_nospace x). tauto. }
  destruct i as [t|[n v|n v|n v|n v]]; cbn [spread_item].
  - apply texts_plain, parts_nospace.
  - rewrite Forall_cons_iff, A. cbn [item_plain item_loose arg_name]. rewrite B. destruct v; cbn [value_map]; tauto.
  - rewrite Forall_cons_iff, A. cbn [item_plain item_loose arg_name]. rewrite B. destruct v; cbn [value_map]; tauto.
  - rewrite Forall_cons_iff, A. cbn [item_plain item_loose arg_name]. rewrite B. destruct v; cbn [value_map]; tauto.
  - rewrite Forall_cons_iff, (A (Some n)). cbn [item_plain item_loose arg_name]. rewrite (B (Some n)). cbn [option_map]. destruct v; cbn [value_map]; tauto.
Qed.
Lemma flat_forall {A B} (P : B -> Prop) (Q : A -> Prop) (f : A -> list B) l : (forall x, Forall P (f x) <-> Q x) -> (Forall P (flat_map f l) <-> Forall Q l).
Proof. intros H. induction l as [|x l IH]; cbn [flat_map]; [split; constructor|]. rewrite Forall_app, Forall_cons_iff, IH, H. tauto. Qed.
Lemma plain_spread b : block_plain (spread b) <-> block_loose b.
Proof. destruct b as [s1 s2 col op items ty]. unfold block_plain, block_loose. cbn [spread ab_content]. apply flat_forall, plain_item_spread. Qed.
Lemma given_item_spread i : Forall item_given (spread_item spread i) <-> item_given i.
Proof.
  assert (T : forall ts, Forall item_given (map SText ts)) by (intros ts; apply Forall_forall; intros x I; apply in_map_iff in I as (t & <- & _); exact Logic.I).
  destruct i as [t|[n v|n v|n v|n v]]; cbn [spread_item]; [split; [intros _; exact Logic.I|intros _; apply T]|..]; rewrite Forall_cons_iff.
  1-3: assert (X : Forall item_given match n with Some x => map SText (other_parts x) | None => [] end) by (destruct n; [apply T|constructor]).
  4: pose proof (T (other_parts n)) as X.
  all: destruct v; cbn [value_map item_given]; tauto.
Qed.
Lemma given_spread b : block_given (spread b) <-> block_given b.
Proof. destruct b as [s1 s2 col op items ty]. unfold block_given. cbn [spread ab_content ab_type]. now rewrite (flat_forall _ _ _ _ given_item_spread). Qed.

(** ** Whole projects *)
Definition same_size (b : ablock) : Prop := block_size (spread b) = block_size b.
Lemma stack_size_spread l : stack_all same_size l -> stack_size block_size (map spread l) = stack_size block_size l.
Proof. induction l as [|b l IH]; cbn [stack_all map stack_size]; [reflexivity|]. intros [H1 H]. rewrite (IH H). now rewrite H1. Qed.
Lemma items_size_spread items : items_all same_size items -> items_size block_size (flat_map (spread_item spread) items) = items_size block_size items.
Proof.
  induction items as [|i items IH]; cbn [items_all flat_map]; [reflexivity|]. intros [Hi H].
  assert (A : forall a b, items_size block_size (a ++ b) = (items_size block_size a + items_size block_size b)%nat) by (induction a as [|x a IHa]; intros b; cbn [app items_size]; [reflexivity|]; rewrite IHa; apply Nat.add_assoc).
  rewrite A, (IH H). cbn [items_size]. f_equal.
  assert (T : forall ts, items_size block_size (map SText ts) = 0%nat) by (induction ts as [|t ts IHt]; [reflexivity|exact IHt]).
  assert (X : forall n : option str, items_size block_size match n with Some x => map SText (other_parts x) | None => [] end = 0%nat) by (intros [x|]; [apply T|reflexivity]).
  destruct i as [t|[n v|n v|n v|n v]]; cbn [spread_item item_all] in *; [apply T|..]; cbn [items_size]; rewrite ?X, ?T, Nat.add_0_r; destruct v; cbn [value_map value_all item_size value_size] in *; auto.
Qed.
Lemma size_spread b : same_size b.
Proof.
  induction b as [s1 s2 col op items ty Q1 Q2 Q] using ablock_induct. unfold same_size. cbn [spread block_size]. rewrite items_size_spread by auto. destruct s1, s2; cbn [option_map sub_size sub_all] in *; rewrite ?stack_size_spread by auto; reflexivity.
Qed.
Lemma sizes_spread l : blocks_size (map spread l) = blocks_size l.
Proof. apply stack_size_spread, stack_all_intro, size_spread. Qed.
Lemma forall_again (P Q : ablock -> Prop) l : (forall b, P (spread b) <-> Q b) -> (Forall (fun b => Forall P (read_again b)) (map spread l) <-> Forall (fun b => Forall Q (read_again b)) l).
Proof.
  intros H. induction l as [|b l IH]; cbn [map]; [split; constructor|]. rewrite !Forall_cons_iff, IH, read_again_spread, Forall_map. 
  enough (E : Forall (fun x => P (spread x)) (read_again b) <-> Forall Q (read_again b)) by (rewrite E; tauto). split; intros K; (eapply Forall_impl; [|exact K]); intros y; apply H.
Qed.
Lemma code_spread l : code_plain (map spread l) <-> code_loose l.
Proof.
  unfold code_plain, code_loose. rewrite sizes_spread, (forall_again _ _ _ plain_spread).
  enough (E : 9 + N.of_nat (blocks_size l) < 2 ^ 31 -> (Forall no_holes (map spread l) <-> Forall no_holes l)) by tauto.
  intros L. rewrite <- (C29_total l L). rewrite <- (C29_total (map spread l)) by (rewrite sizes_spread; exact L). now rewrite spread_into.
Qed.
Lemma code_given_spread l : code_given (map spread l) <-> code_given l.
Proof. apply (forall_again _ _ _ given_spread). Qed.
Lemma spec_item_spread i : Forall plain_item (spread_item spread i) <-> spec_loose i.
Proof.
  assert (T : forall ts, Forall (fun w => ~ In 32 w) ts -> (Forall (@plain_item ablock) (map SText ts) <-> words_ok ts)).
  { intros ts F. unfold words_ok. rewrite Forall_map. split; intros H; rewrite Forall_forall in *; intros w I; specialize (H w I); [apply H|]. split; [now apply F|exact H]. }
  assert (A : forall (n : option str), Forall (@plain_item ablock) match n with Some x => map SText (other_parts x) | None => [] end <-> match n with Some x => words_ok (other_parts x) | None => True end).
  { intros [x|]; [apply T, others_nospace|]. split; auto. }
  assert (B : forall n, name_loose n <-> name_ok (option_map first_part n) /\ match n with Some x => words_ok (other_parts x) | None => True end).
  { intros [x|]; cbn [name_loose option_map name_ok]; [|tauto]. pose proof (first_nospace x). tauto. }
  assert (V : forall U (v : arg_value ablock U), value_map spread v = AEmpty <-> v = AEmpty) by (intros U [?|?|?|]; cbn [value_map]; split; congruence).
  destruct i as [t|[n v|n v|n v|n v]]; cbn [spread_item].
  - apply T, parts_nospace.
  - rewrite Forall_cons_iff, A. cbn [plain_item spec_loose arg_name is_empty]. rewrite B, V. tauto.
  - rewrite Forall_cons_iff, A. cbn [plain_item spec_loose arg_name is_empty]. rewrite B, V. tauto.
  - rewrite Forall_cons_iff, A. cbn [plain_item spec_loose arg_name is_empty]. rewrite B, V. tauto.
  - rewrite Forall_cons_iff, (A (Some n)). cbn [plain_item spec_loose arg_name is_empty]. rewrite (B (Some n)), V. cbn [option_map]. tauto.
Qed.
Lemma spread_item_nonempty f i : spread_item f i <> [].
Proof. destruct (item_words f i) as (w & ws & E & _). intros X. rewrite X in E. discriminate. Qed.
Lemma spread_spec_nonempty items : flat_map (spread_item spread) items <> [] <-> items <> [].
Proof. destruct items as [|i items]; cbn [flat_map]; [tauto|]. pose proof (spread_item_nonempty spread i). destruct (spread_item spread i); [congruence|]. split; discriminate. Qed.
Definition spread_event (e : aevent) : aevent := {| ae_name := ae_name e; ae_type := ae_type e; ae_code := map spread (ae_code e) |}.
Definition spread_more (kv : str * amore_block) : str * amore_block :=
  (fst kv, {| am_name := am_name (snd kv); am_spec := flat_map (spread_item spread) (am_spec (snd kv)); am_code := map spread (am_code (snd kv)) |}).
Lemma spread_events l bc : put_events (map spread_event l) bc = put_events l bc.
Proof.
  revert bc. induction l as [|e l IH]; intros bc; [reflexivity|]. cbn [map put_events]. unfold into_parser_event, get_block_container_id. cbn [spread_event ae_name ae_type ae_code]. rewrite spread_into.
  destruct (blocks_into (ae_code e)); cbn [bind]; try reflexivity. now rewrite IH.
Qed.
Lemma spread_mores l bc : put_more_blocks (map spread_more l) bc = put_more_blocks l bc.
Proof.
  revert bc. induction l as [|[k m] l IH]; intros bc; [reflexivity|]. cbn [map put_more_blocks spread_more fst snd]. unfold into_parser_more_block. cbn [am_name am_spec am_code]. rewrite spread_into, spread_text.
  destruct (blocks_into (am_code m)); cbn [bind]; try reflexivity. now rewrite IH.
Qed.
Lemma spread_logic s : screen_logic_of (spread_screen s) = screen_logic_of s.
Proof.
  unfold screen_logic_of, to_screen_logic, spread_screen. cbn [sc_java_name sc_variables sc_list_variables sc_components sc_more_blocks sc_events].
  rewrite (spread_events (sc_events s)). destruct (put_events (sc_events s) []) as [[es bc]| |]; cbn [bind]; try reflexivity. now rewrite (spread_mores (sc_more_blocks s)).
Qed.
Lemma spread_screens l lgs lays fabs : put_screens (map spread_screen l) lgs lays fabs = put_screens l lgs lays fabs.
Proof.
  revert lgs lays fabs. induction l as [|s l IH]; intros lgs lays fabs; [reflexivity|]. cbn [map put_screens]. rewrite spread_logic.
  change (sc_fab (spread_screen s)) with (sc_fab s). change (sc_layout_name (spread_screen s)) with (sc_layout_name s). change (sc_layout (spread_screen s)) with (sc_layout s). change (sc_java_name (spread_screen s)) with (sc_java_name s).
  destruct (sc_fab s) as [v|]; [destruct (fab_of v); cbn [bind]; try reflexivity|cbn [bind]]; destruct (screen_logic_of s); cbn [bind]; try reflexivity; apply IH.
Qed.
Lemma spread_project_into p : project_into (spread_project p) = project_into p.
Proof.
  unfold project_into, spread_project. cbn [set_screens sp_screens sp_automatic sp_resources sp_custom_views sp_libraries sp_custom_icon]. rewrite spread_screens.
  destruct (put_screens (sp_screens p) [] [] []) as [[[lgs lays] fabs]| |]; cbn [bind]; try reflexivity. rewrite map_map. reflexivity.
Qed.
Lemma screen_codes_spread s : screen_codes (spread_screen s) = map (map spread) (screen_codes s).
Proof. unfold screen_codes, spread_screen. cbn [sc_events sc_more_blocks]. rewrite map_app, !map_map. reflexivity. Qed.
Lemma shared_spread s : shared_empty (spread_screen s) <-> shared_empty s.
Proof.
  unfold shared_empty. change (sc_events (spread_screen s)) with (map spread_event (sc_events s)). change (sc_more_blocks (spread_screen s)) with (map spread_more (sc_more_blocks s)). split; intros H a e b E O.
  - assert (Q : ae_code (spread_event e) = []).
    { apply (H (map spread_event a) (spread_event e) (map spread_event b)); [rewrite E, map_app; reflexivity|]. destruct O as [(o & I & O)|(kv & I & O)].
      - left. exists (spread_event o). rewrite <- map_app. split; [now apply in_map|exact O].
      - right. exists (spread_more kv). split; [now apply in_map|exact O]. }
    cbn [spread_event ae_code] in Q. now apply map_eq_nil in Q.
  - apply map_eq_app in E as (a' & r & E & <- & Er). apply map_eq_cons in Er as (e' & b' & -> & <- & <-). cbn [spread_event ae_code]. rewrite (H a' e' b' E); [reflexivity|]. destruct O as [(o & I & O)|(kv & I & O)].
    + left. rewrite <- map_app in I. apply in_map_iff in I as (o' & <- & I). exists o'. auto.
    + right. apply in_map_iff in I as (kv' & <- & I). exists kv'. auto.
Qed.
Lemma on_create_spread l : on_create_first (map spread_event l) <-> on_create_first l.
Proof.
  unfold on_create_first. split; (intros [H|(e & r & E & H1 & H2 & H3)]; [left|right]).
  - intros e I. apply (H (spread_event e)). now apply in_map.
  - apply map_eq_cons in E as (e' & r' & -> & <- & <-). exists e', r'. split; [reflexivity|]. split; [exact H1|]. split; [exact H2|]. intros x I. apply (H3 (spread_event x)). now apply in_map.
  - intros e I. apply in_map_iff in I as (e' & <- & I). exact (H e' I).
  - exists (spread_event e), (map spread_event r). split; [now rewrite E|]. split; [exact H1|]. split; [exact H2|]. intros x I. apply in_map_iff in I as (x' & <- & I). exact (H3 x' I).
Qed.
Lemma plain_spread_screen s : plain_screen (spread_screen s) <-> loose_screen s.
Proof.
  unfold plain_screen, loose_screen. rewrite screen_codes_spread, shared_spread.
  change (sc_java_name (spread_screen s)) with (sc_java_name s). change (sc_layout_name (spread_screen s)) with (sc_layout_name s). change (sc_components (spread_screen s)) with (sc_components s). change (sc_layout (spread_screen s)) with (sc_layout s).
  change (sc_events (spread_screen s)) with (map spread_event (sc_events s)). change (sc_more_blocks (spread_screen s)) with (map spread_more (sc_more_blocks s)). rewrite on_create_spread.
  assert (E1 : map fst (map spread_more (sc_more_blocks s)) = map fst (sc_more_blocks s)) by (rewrite map_map; reflexivity). rewrite E1.
  assert (E2 : Forall code_plain (map (map spread) (screen_codes s)) <-> Forall code_loose (screen_codes s)).
  { rewrite Forall_map. split; intros H; (eapply Forall_impl; [|exact H]); intros l; apply code_spread. }
  assert (E3 : Forall (fun kv => am_name (snd kv) = fst kv /\ am_spec (snd kv) <> [] /\ Forall plain_item (am_spec (snd kv))) (map spread_more (sc_more_blocks s)) <->
               Forall (fun kv => am_name (snd kv) = fst kv /\ am_spec (snd kv) <> [] /\ Forall spec_loose (am_spec (snd kv))) (sc_more_blocks s)).
  { rewrite Forall_map. split; intros H; (eapply Forall_impl; [|exact H]); intros kv; cbn [spread_more fst snd am_name am_spec]; rewrite spread_spec_nonempty, (flat_forall _ _ _ _ spec_item_spread); auto. }
  rewrite E2, E3. tauto.
Qed.
Lemma plain_spread_project p : plain_project (spread_project p) <-> loose_project p.
Proof.
  unfold plain_project, loose_project, spread_project. cbn [set_screens sp_screens sp_custom_views]. rewrite !map_map.
  change (fun x => sc_layout_name (spread_screen x)) with sc_layout_name. change (fun x => sc_java_name (spread_screen x)) with sc_java_name. 
  assert (E : Forall plain_screen (map spread_screen (sp_screens p)) <-> Forall loose_screen (sp_screens p)).
  { rewrite Forall_map. split; intros H; (eapply Forall_impl; [|exact H]); intros s; apply plain_spread_screen. }
  rewrite E. tauto.
Qed.
Lemma all_given_spread l : all_given (map spread_screen l) <-> all_given l.
Proof.
  unfold all_given. rewrite Forall_map. split; intros H; (eapply Forall_impl; [|exact H]); intros s; cbv beta; rewrite screen_codes_spread, Forall_map; intros K; (eapply Forall_impl; [|exact K]); intros c; apply code_given_spread.
Qed.
Lemma without_spread s : without_code (spread_screen s) = spread_screen (without_code s).
Proof.
  unfold without_code, spread_screen. cbn [sc_layout_name sc_java_name sc_layout sc_variables sc_list_variables sc_more_blocks sc_components sc_events sc_fab sc_fullscreen sc_toolbar sc_drawer sc_fab_enabled sc_orientation sc_theme sc_keyboard].
  f_equal; rewrite !map_map; [reflexivity|]. cbn [ae_name ae_type ae_code map]. induction (sc_events s) as [|e l IH]; [reflexivity|]. cbn [map filter ae_name]. destruct (list_eq_dec N.eq_dec (ae_name e) (lit "onCreate")); [exact IH|]. cbn [map ae_name ae_type]. f_equal. exact IH.
Qed.
Lemma code_kept_spread l : code_kept (map spread_screen l) = map spread_screen (code_kept l).
Proof.
  induction l as [|s l IH]; [reflexivity|]. cbn [map code_kept]. change (sc_events (spread_screen s)) with (map spread_event (sc_events s)). change (sc_more_blocks (spread_screen s)) with (map spread_more (sc_more_blocks s)).
  assert (W : without_code (spread_screen s) :: map without_code (map spread_screen l) = map spread_screen (without_code s :: map without_code l)).
  { cbn [map]. rewrite without_spread. f_equal. rewrite !map_map. apply map_ext. apply without_spread. }
  destruct (sc_events s), (sc_more_blocks s); cbn [map]; try (rewrite IH; reflexivity). exact W.
Qed.
Lemma fits_spread p dt : project_fits p dt -> project_fits (spread_project p) dt.
Proof.
  unfold project_fits, spread_project. cbn [set_screens sp_metadata sp_colors sp_screens sp_custom_views]. intros (H1 & H2 & H3 & H4 & H5 & H6 & H7 & H8). repeat (split; [assumption|]). split; [|exact H8].
  apply Forall_map. eapply Forall_impl; [|exact H7]. intros s (S1 & S2 & S3 & S4 & S5 & S6 & S7 & S8 & S9). unfold screen_fits.
  change (sc_events (spread_screen s)) with (map spread_event (sc_events s)). change (sc_more_blocks (spread_screen s)) with (map spread_more (sc_more_blocks s)).
  split; [exact S1|]. split; [exact S2|]. split; [exact S3|]. split; [exact S4|]. split; [exact S5|]. split; [|split; [|split]].
  - apply Forall_map. eapply Forall_impl; [|exact S6]. intros e (E1 & E2 & E3 & E4). split; [exact E1|]. split; [exact E2|]. split; [exact E3|]. unfold code_fits in *. cbn [spread_event ae_code]. now rewrite spread_into.
  - apply Forall_map. eapply Forall_impl; [|exact S7]. intros kv (E1 & E2 & E3 & E4 & E5). unfold more_block_fits. cbn [spread_more fst snd am_spec am_code]. rewrite spread_text. split; [exact E1|]. split; [exact E2|]. split; [exact E3|]. split; [exact E4|].
    unfold code_fits in *. now rewrite spread_into.
  - intros k m r c n E. apply map_eq_cons in E as ([k' m'] & r' & E & [= -> _] & _). eauto.
  - intros r k m E. apply map_eq_app in E as (a & b & E & _ & Er). apply map_eq_cons in Er as ([k' m'] & b' & -> & [= _ <-] & X). apply map_eq_nil in X as ->. cbn [am_spec]. rewrite spread_text. eauto.
Qed.
