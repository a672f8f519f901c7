(** The [logic] data file: exactly which logics survive writing and reading. *)
From Coq Require Import Permutation.
From Verif Require Import Base Spec Str Dec Json JsonProofs Recs RecsProofs LinesProofs FileProofs M_Color ColorProofs M_Logic LogicProofs.

(** ** the loop does not depend on the fuel *)
Lemma pool_loop_rest {E A M} (p : str -> res E A) (ins : A -> M -> M) lines n acc r rest :
  pool_loop p ins lines n acc = Ok (r, rest) -> (length rest <= length lines)%nat.
Proof.
  intros H. apply pool_loop_inv in H as (used & tail & xs & -> & T & _). rewrite app_length.
  destruct T as [[-> ->]| ->]; cbn; lia.
Qed.
Lemma more_block_rest lines r rest : more_block_pool_parse_iter lines = Ok (r, rest) -> (length rest <= length lines)%nat.
Proof.
  unfold more_block_pool_parse_iter. destruct (pool_loop more_block_parse vpush lines 0 []) as [[v r']| |] eqn:E; cbn [bind]; try discriminate.
  intros [= _ <-]. now apply pool_loop_rest in E.
Qed.
Lemma block_container_rest lines r rest : block_container_parse_iter lines = Ok (r, rest) -> (length rest <= length lines)%nat.
Proof.
  unfold block_container_parse_iter. destruct (pool_loop block_parse vpush lines 0 []) as [[v r']| |] eqn:E; cbn [map_err]; try discriminate.
  intros [= _ <-]. now apply pool_loop_rest in E.
Qed.
Lemma bind_ext {E A B} (r : res E A) (f g : A -> res E B) : (forall a, r = Ok a -> f a = g a) -> bind r f = bind r g.
Proof. destruct r; cbn; auto. Qed.
Lemma map_err_ok {E F A} (f : E -> F) (r : res E A) a : map_err f r = Ok a -> r = Ok a.
Proof. destruct r; cbn; congruence. Qed.
Lemma logic_loop_fuel mv fuel fuel' lines n m : (length lines <= fuel)%nat -> (length lines <= fuel')%nat ->
  logic_loop mv fuel lines n m = logic_loop mv fuel' lines n m.
Proof.
  revert fuel' lines n m. induction fuel as [|fuel IH]; intros fuel' lines n m H H'.
  - destruct lines; [destruct fuel'; reflexivity|cbn in H; lia].
  - destruct lines as [|line rest]; [destruct fuel'; reflexivity|]. cbn [length] in *. destruct fuel' as [|fuel']; [lia|].
    cbn [logic_loop]. destruct (negb _); [reflexivity|].
    repeat match goal with |- (if ?b then _ else _) = _ => destruct b end;
      apply bind_ext; intros h _; apply bind_ext; intros [p r] E; apply map_err_ok in E; apply IH; cbn [snd];
      first [apply pool_loop_rest in E|apply more_block_rest in E|apply block_container_rest in E]; lia.
Qed.
Definition logic_run (mv : bool) (lines : list str) (n : N) (m : logic) := logic_loop mv (length lines) lines n m.
Lemma logic_run_nil mv n m : logic_run mv [] n m = Ok m. Proof. reflexivity. Qed.
Lemma logic_run_stop mv l r n m : starts_with (lit "@") l = false -> logic_run mv (l :: r) n m = Ok m.
Proof. intros H. unfold logic_run. cbn [length logic_loop]. now rewrite H. Qed.

(** ** sections *)
Inductive sect :=
| SVar (n : str) (p : variable_pool) | SList (n : str) (p : list_variable_pool) | SComp (n : str) (p : list component)
| SEv (n : str) (p : list event) | SMb (n : str) (p : more_block_pool) | SBlk (n c : str) (b : block_container).
Definition s_name (s : sect) : str :=
  match s with SVar n _ => n | SList n _ => n | SComp n _ => n | SEv n _ => n | SMb n _ => n | SBlk n _ _ => n end.
Definition s_suffix (s : sect) : str :=
  match s with
  | SVar _ _ => lit "java_var" | SList _ _ => lit "java_list" | SComp _ _ => lit "java_components" | SEv _ _ => lit "java_events"
  | SMb _ _ => lit "java_func" | SBlk _ c _ => lit "java_" ++ c
  end.
Definition s_header (s : sect) : str := AT :: s_name s ++ 46 :: s_suffix s.
Definition s_body (s : sect) : list str :=
  match s with
  | SVar _ p => map variable_reconstruct (map snd p) | SList _ p => map list_variable_reconstruct (map snd p)
  | SComp _ p => map component_reconstruct p | SEv _ p => map event_reconstruct p
  | SMb _ p => map more_block_reconstruct (map snd p) | SBlk _ _ b => map block_reconstruct b
  end.
Definition s_fun (s : sect) : screen_logic -> screen_logic :=
  match s with
  | SVar _ p => set_variables p | SList _ p => set_list_variables p | SComp _ p => set_components p
  | SEv _ p => set_events p | SMb _ p => set_more_blocks p | SBlk _ c b => add_container c b
  end.
Definition s_apply (mv : bool) (m : logic) (s : sect) : logic := entry_update mv (s_name s) (s_fun s) m.
Definition reserved : list str := [lit "java_var"; lit "java_list"; lit "java_components"; lit "java_events"; lit "java_func"].
Definition no_java (n : str) : Prop := forall a b, n <> a ++ lit ".java_" ++ b.
Definition screen_name_ok (n : str) : Prop := ~ In NL n /\ no_java n.
Definition container_name_ok (c : str) : Prop :=
  ~ In NL c /\ no_java c /\ (forall r a, In r reserved -> lit "java_" ++ c <> a ++ r).
Definition s_ok (s : sect) : Prop :=
  screen_name_ok (s_name s) /\
  match s with
  | SVar _ p => variable_pool_ok p | SList _ p => list_variable_pool_ok p | SComp _ p => Forall component_ok p
  | SEv _ p => Forall event_ok p | SMb _ p => more_block_pool_ok p | SBlk _ c b => container_name_ok c /\ Forall block_ok b
  end.

Lemma ends_with_dot suf a b : ~ In 46 suf -> ends_with suf (a ++ 46 :: b) = ends_with suf b.
Proof.
  intros H. destruct (ends_with suf b) eqn:E.
  - apply ends_with_spec in E as [r ->]. apply ends_with_spec. exists (a ++ 46 :: r). now rewrite <- app_assoc.
  - destruct (ends_with suf (a ++ 46 :: b)) eqn:F; auto. apply ends_with_spec in F as [r F].
    apply app_eq_app in F as [e [[_ F]|[_ F]]].
    + exfalso. apply H. rewrite F. apply in_or_app. right. now left.
    + destruct e as [|x e]; cbn [app] in F.
      * exfalso. apply H. rewrite <- F. now left.
      * injection F as _ F. assert (ends_with suf b = true) by (apply ends_with_spec; eauto). congruence.
Qed.
Ltac in_lit := let H := fresh in intros H; vm_compute in H; repeat (destruct H as [H|H]; [discriminate H|]); exact H.
Lemma header_ends suf s : In suf reserved -> ends_with suf (s_header s) = ends_with suf (s_suffix s).
Proof.
  intros H. unfold s_header. change (AT :: s_name s ++ 46 :: s_suffix s) with ((AT :: s_name s) ++ 46 :: s_suffix s).
  apply ends_with_dot. cbn [reserved In] in H. destruct H as [<-|[<-|[<-|[<-|[<-|[]]]]]]; in_lit.
Qed.
Lemma header_at s : starts_with (lit "@") (s_header s) = true.
Proof. reflexivity. Qed.
Lemma header_name_ok n suf k : blen (46 :: suf) = k -> header_name k (AT :: n ++ 46 :: suf) = Ok n.
Proof.
  intros H. unfold header_name. change (AT :: n ++ 46 :: suf) with ([AT] ++ n ++ (46 :: suf)).
  rewrite !blen_app, H. replace (_ <=? _)%nat with true by (symmetry; apply Nat.leb_le; lia).
  replace (blen [AT] + (blen n + k) - k)%nat with (blen [AT] + blen n)%nat by lia. change 1%nat with (blen [AT]).
  now rewrite bslice_app.
Qed.
(** ".java_" does not overlap itself *)
Lemma java_prefix x n c r : strip_prefix (lit ".java_") ((x :: n) ++ lit ".java_" ++ c) = Some r ->
  exists r', strip_prefix (lit ".java_") (x :: n) = Some r'.
Proof.
  intros H. apply strip_prefix_spec in H. apply app_eq_app in H as [e [[H _]|[H H2]]].
  - exists e. now apply strip_prefix_spec.
  - destruct e as [|y e].
    + exists []. apply strip_prefix_spec. now rewrite H, !app_nil_r.
    + exfalso. cbn [app] in H2. change (lit ".java_") with [46; 106; 97; 118; 97; 95] in *. cbn [app] in H2. injection H2 as <- _.
      assert (Hi : In 46 [106; 97; 118; 97; 95]).
      { cbn [app] in H. injection H as _ H. rewrite H. apply in_or_app. right. now left. }
      cbn in Hi. repeat (destruct Hi as [Hi|Hi]; [discriminate|]). exact Hi.
Qed.
Lemma split_once_java n c : no_java n -> split_once (lit ".java_") (n ++ lit ".java_" ++ c) = Some (n, c).
Proof.
  induction n as [|x n IH]; intros H.
  - cbn [app]. unfold split_once. destruct (lit ".java_" ++ c) eqn:E; rewrite <- E; now rewrite strip_prefix_app.
  - assert (Hn : no_java n) by (intros a b ->; apply (H (x :: a) b); reflexivity).
    cbn [app split_once].
    destruct (strip_prefix (lit ".java_") (x :: n ++ lit ".java_" ++ c)) as [r|] eqn:E.
    + change (x :: n ++ lit ".java_" ++ c) with ((x :: n) ++ lit ".java_" ++ c) in E. apply java_prefix in E as [r' E].
      apply strip_prefix_spec in E. exfalso. exact (H [] r' E).
    + now rewrite IH.
Qed.
Lemma split_first_java c : no_java c -> split_first (lit ".java_") c = c.
Proof.
  intros H. unfold split_first. destruct (split_once (lit ".java_") c) as [[a b]|] eqn:E; auto.
  apply split_once_spec in E. now apply H in E.
Qed.
Lemma container_header_ok n c : screen_name_ok n -> container_name_ok c ->
  container_header_parse (AT :: n ++ 46 :: lit "java_" ++ c) = Ok {| ch_screen := n; ch_container := c |}.
Proof.
  intros [_ Hn] (_ & Hc & _). unfold container_header_parse. change (starts_with (lit "@") (AT :: n ++ 46 :: lit "java_" ++ c)) with true. cbv iota.
  change (AT :: n ++ 46 :: lit "java_" ++ c) with ((AT :: n) ++ lit ".java_" ++ c). rewrite split_once_java.
  - change 1%nat with (blen [AT]). change (AT :: n) with ([AT] ++ n). rewrite bdrop_app. cbn [unwrap bind].
    now rewrite split_first_java.
  - intros [|y a] b E; [discriminate|]. injection E as _ E. exact (Hn a b E).
Qed.
(** one section *)
Lemma logic_run_sect mv s tail rest n m : s_ok s -> sec_end tail rest ->
  logic_run mv (s_header s :: s_body s ++ tail) n m = logic_run mv rest (n + 1) (s_apply mv m s).
Proof.
  intros [Hn Hs] T. unfold logic_run at 1. cbn [length logic_loop]. rewrite header_at. cbn [negb].
  assert (R : (length rest <= length (s_body s ++ tail))%nat).
  { rewrite app_length. destruct T as [[-> ->]| ->]; cbn; lia. }
  rewrite !header_ends by (cbn; tauto).
  assert (N : forall (xs : list str) (P : str -> Prop), Forall P xs -> Forall P xs) by auto.
  destruct s as [nm p|nm p|nm p|nm p|nm p|nm c b]; cbn [s_suffix s_name] in *.
  - change (ends_with (lit "java_var") (lit "java_var")) with true. cbv iota.
    unfold s_header; cbn [s_name s_suffix]. rewrite header_name_ok by reflexivity. cbn [bind s_body].
    unfold variable_pool_parse_iter. rewrite (pool_loop_ok _ _ _ _ tail rest) by first [exact T|eapply Forall_impl; [|apply variable_pool_lines; exact Hs]; cbn; tauto].
    cbn [map_err bind fst snd]. rewrite variable_pool_fold by auto. now apply logic_loop_fuel.
  - change (ends_with (lit "java_var") (lit "java_list")) with false. change (ends_with (lit "java_list") (lit "java_list")) with true. cbv iota.
    unfold s_header; cbn [s_name s_suffix]. rewrite header_name_ok by reflexivity. cbn [bind s_body].
    unfold list_variable_pool_parse_iter. rewrite (pool_loop_ok _ _ _ _ tail rest) by first [exact T|eapply Forall_impl; [|apply list_variable_pool_lines; exact Hs]; cbn; tauto].
    cbn [map_err bind fst snd]. rewrite list_variable_pool_fold by auto. now apply logic_loop_fuel.
  - change (ends_with (lit "java_var") (lit "java_components")) with false. change (ends_with (lit "java_list") (lit "java_components")) with false.
    change (ends_with (lit "java_components") (lit "java_components")) with true. cbv iota.
    unfold s_header; cbn [s_name s_suffix]. rewrite header_name_ok by reflexivity. cbn [bind s_body].
    unfold component_pool_parse_iter. rewrite (pool_loop_ok _ _ _ _ tail rest) by first [exact T|eapply Forall_impl; [|eapply (record_lines component_parse); [apply component_rt|apply component_clean|exact Hs]]; cbn; tauto].
    cbn [map_err bind fst snd]. rewrite fold_vpush. now apply logic_loop_fuel.
  - change (ends_with (lit "java_var") (lit "java_events")) with false. change (ends_with (lit "java_list") (lit "java_events")) with false.
    change (ends_with (lit "java_components") (lit "java_events")) with false. change (ends_with (lit "java_events") (lit "java_events")) with true. cbv iota.
    unfold s_header; cbn [s_name s_suffix]. rewrite header_name_ok by reflexivity. cbn [bind s_body].
    unfold event_pool_parse_iter. rewrite (pool_loop_ok _ _ _ _ tail rest) by first [exact T|eapply Forall_impl; [|eapply (record_lines event_parse); [apply event_rt|apply event_clean|exact Hs]]; cbn; tauto].
    cbn [map_err bind fst snd]. rewrite fold_vpush. now apply logic_loop_fuel.
  - change (ends_with (lit "java_var") (lit "java_func")) with false. change (ends_with (lit "java_list") (lit "java_func")) with false.
    change (ends_with (lit "java_components") (lit "java_func")) with false. change (ends_with (lit "java_events") (lit "java_func")) with false.
    change (ends_with (lit "java_func") (lit "java_func")) with true. cbv iota.
    unfold s_header; cbn [s_name s_suffix]. rewrite header_name_ok by reflexivity. cbn [bind s_body].
    unfold more_block_pool_parse_iter. rewrite (pool_loop_ok _ _ _ _ tail rest) by first [exact T|eapply Forall_impl; [|apply more_block_pool_lines; exact Hs]; cbn; tauto].
    cbn [map_err bind fst snd]. rewrite fold_vpush. cbn [app].
    replace (fold_left (fun m0 b => sinsert (mb_id b) b m0) (map snd p) []) with p
      by (destruct Hs as ([O1 O2] & _); symmetry; exact (own_collect_id mb_id p O1 O2)).
    now apply logic_loop_fuel.
  - destruct Hs as [Hc Hb]. pose proof Hc as (_ & _ & Hr).
    assert (X : forall r, In r reserved -> ends_with r (lit "java_" ++ c) = false).
    { intros r Hi. destruct (ends_with r (lit "java_" ++ c)) eqn:E; auto. apply ends_with_spec in E as [a E]. now apply (Hr r a Hi) in E. }
    rewrite !X by (cbn; tauto). cbv iota. unfold s_header; cbn [s_name s_suffix].
    rewrite container_header_ok by auto. cbn [map_err bind ch_screen ch_container s_body].
    unfold block_container_parse_iter. rewrite (pool_loop_ok _ _ _ _ tail rest) by first [exact T|eapply Forall_impl; [|eapply (record_lines block_parse); [apply block_rt|apply block_clean|exact Hb]]; cbn; tauto].
    cbn [map_err bind fst snd]. rewrite fold_vpush. now apply logic_loop_fuel.
Qed.

(** ** groups of sections: the pools one by one, then the containers of each screen *)
Definition sl (s : sect) : list str := s_header s :: s_body s.
Fixpoint sepcat (gs : list (list str)) : list str :=
  match gs with
  | [] => []
  | g :: r => match r with [] => g | _ => g ++ [] :: sepcat r end
  end.
Lemma sepcat_cons g h r : sepcat (g :: h :: r) = g ++ [] :: sepcat (h :: r).
Proof. reflexivity. Qed.
Lemma sepcat_snoc gs g : gs <> [] -> sepcat (gs ++ [g]) = sepcat gs ++ [] :: g.
Proof.
  induction gs as [|a gs IH]; [congruence|]. intros _. destruct gs as [|b gs]; [reflexivity|].
  change ((a :: b :: gs) ++ [g]) with (a :: b :: (gs ++ [g])). rewrite !sepcat_cons. change (b :: gs ++ [g]) with ((b :: gs) ++ [g]).
  rewrite IH by discriminate. now rewrite <- app_assoc.
Qed.
Lemma sepcat_nonnil g r : g <> [] -> sepcat (g :: r) <> [].
Proof. destruct r; [auto|]. rewrite sepcat_cons. destruct g; [congruence|discriminate]. Qed.
Definition glines (g : list sect) : list str := match g with [] => [[]] | _ => sepcat (map sl g) end.
Lemma glines_nonnil g : glines g <> [].
Proof. destruct g; [discriminate|]. apply sepcat_nonnil. discriminate. Qed.
Lemma logic_run_group mv g tail rest n m : g <> [] -> Forall s_ok g -> sec_end tail rest ->
  logic_run mv (sepcat (map sl g) ++ tail) n m = logic_run mv rest (n + N.of_nat (length g)) (fold_left (s_apply mv) g m).
Proof.
  intros Hn H T. revert n m. induction H as [|s g Hs Hg IH]; [congruence|]. intros n m. destruct g as [|s2 g].
  - cbn [map sepcat length fold_left]. unfold sl. cbn [app]. rewrite (logic_run_sect mv s tail rest) by auto. f_equal.
  - cbn [map]. rewrite sepcat_cons. unfold sl at 1. cbn [app]. rewrite <- app_assoc. cbn [app].
    rewrite (logic_run_sect mv s ([] :: _) (sepcat (sl s2 :: map sl g) ++ tail)) by (auto; right; reflexivity).
    change (sl s2 :: map sl g) with (map sl (s2 :: g)). rewrite IH by discriminate. cbn [fold_left length]. f_equal. lia.
Qed.
(** what the loop gets to see: it stops at the first empty group *)
Fixpoint reach (gs : list (list sect)) : list sect :=
  match gs with
  | [] => []
  | g :: r => match g with [] => [] | _ => g ++ reach r end
  end.
Lemma logic_run_groups mv gs n m : Forall (Forall s_ok) gs -> logic_run mv (sepcat (map glines gs)) n m = Ok (fold_left (s_apply mv) (reach gs) m).
Proof.
  intros H. revert n m. induction H as [|g gs Hg Hgs IH]; intros n m; [reflexivity|]. destruct g as [|s g].
  - cbn [map glines reach fold_left]. destruct gs; [reflexivity|]. cbn [map]. rewrite sepcat_cons. now apply logic_run_stop.
  - cbn [reach]. rewrite fold_left_app. cbn [map]. change (glines (s :: g)) with (sepcat (map sl (s :: g))). destruct gs as [|g2 gs].
    + change (sepcat (sepcat (map sl (s :: g)) :: map glines [])) with (sepcat (map sl (s :: g))). rewrite <- (app_nil_r (sepcat (map sl (s :: g)))).
      rewrite (logic_run_group mv (s :: g) [] []) by (auto; try discriminate; left; auto). reflexivity.
    + cbn [map]. rewrite sepcat_cons. rewrite (logic_run_group mv (s :: g) ([] :: _) (sepcat (map glines (g2 :: gs)))) by (auto; try discriminate; right; reflexivity).
      apply IH.
Qed.
Fixpoint dropempty (gs : list (list sect)) : list (list sect) :=
  match gs with
  | [] => []
  | g :: r => match g with [] => dropempty r | _ => gs end
  end.
Lemma reach_snoc_nil gs : reach (gs ++ [[]]) = reach gs.
Proof. induction gs as [|g gs IH]; [reflexivity|]. cbn [app reach]. destruct g; [reflexivity|]. now rewrite IH. Qed.
Lemma dropempty_snoc_nil gs : dropempty (gs ++ [[]]) = match dropempty gs with [] => [] | d => d ++ [[]] end.
Proof. induction gs as [|g gs IH]; [reflexivity|]. cbn [app dropempty]. destruct g; auto. Qed.
Definition gtext (gs : list (list sect)) : str := concat (map (fun g => NL :: NL :: join NL (glines g)) gs).
Lemma gtext_core gs : exists core, trim (gtext gs) = trim (gtext core) /\ reach (dropempty gs) = reach core /\ incl core gs /\
  (core = [] \/ exists s g r, core = (s :: g) :: r /\ last core [] <> []).
Proof.
  induction gs as [|g gs IH] using rev_ind; [exists []; repeat split; auto; intros ? []|].
  destruct g as [|s g].
  - destruct IH as (core & T & R & I & C). exists core. split; [|split; [|split]]; auto.
    + unfold gtext in *. rewrite map_app, concat_app. cbn [map concat]. rewrite app_nil_r. cbn [glines join].
      rewrite trim_ws_app_r by reflexivity. exact T.
    + rewrite dropempty_snoc_nil. destruct (dropempty gs) eqn:D; [exact R|]. now rewrite reach_snoc_nil.
    + intros x Hx. apply in_or_app. auto.
  - clear IH. induction gs as [|[|s2 g2] gs IH].
    + exists [s :: g]. repeat split; auto using incl_refl. right. exists s, g, []. split; auto. discriminate.
    + destruct IH as (core & T & R & I & C). exists core. split; [|split; [|split]]; auto.
      intros x Hx. right. auto.
    + exists (((s2 :: g2) :: gs) ++ [s :: g]). repeat split; auto using incl_refl. right. exists s2, g2, (gs ++ [s :: g]).
      split; [reflexivity|]. rewrite last_last. discriminate.
Qed.
Lemma join_sep2 a b : a <> [] -> b <> [] -> join NL (a ++ [] :: b) = join NL a ++ NL :: NL :: join NL b.
Proof.
  intros Ha Hb. rewrite join_app by (auto; discriminate). f_equal. f_equal. destruct b; [congruence|]. now rewrite join_cons2.
Qed.
Lemma gtext_join gs : gs <> [] -> gtext gs = NL :: NL :: join NL (sepcat (map glines gs)).
Proof.
  induction gs as [|g gs IH]; [congruence|]. intros _. destruct gs as [|g2 gs].
  - unfold gtext. cbn [map concat sepcat]. now rewrite app_nil_r.
  - unfold gtext in *. change (map glines (g :: g2 :: gs)) with (glines g :: glines g2 :: map glines gs). rewrite sepcat_cons.
    rewrite join_sep2 by (try apply glines_nonnil; apply sepcat_nonnil, glines_nonnil).
    change (glines g2 :: map glines gs) with (map glines (g2 :: gs)).
    change (map (fun g : list sect => NL :: NL :: join NL (glines g)) (g :: g2 :: gs)) with
      ((NL :: NL :: join NL (glines g)) :: map (fun g : list sect => NL :: NL :: join NL (glines g)) (g2 :: gs)).
    cbn [concat]. rewrite IH by discriminate. cbn [app]. reflexivity.
Qed.
(** ** ends of lines *)
Definition s_edge (s : sect) : Prop :=
  match s with SBlk _ c b => b <> [] \/ (forall a x, c = a ++ [x] -> is_ws x = false) | _ => True end.
Definition g_ok (g : list sect) : Prop := Forall s_ok g /\ (forall r s, g = r ++ [s] -> s_edge s).
Lemma own_last {A} (p : smap A) r x : map snd p = r ++ [x] -> exists r' k, p = r' ++ [(k, x)].
Proof. apply map_snd_snoc. Qed.
Lemma last_map_snoc {A} (f : A -> str) (h : str) xs : xs = [] \/ exists r x, xs = r ++ [x] /\ last (h :: map f xs) [] = f x.
Proof.
  destruct xs as [|x xs _] using rev_ind; [now left|right]. exists xs, x. split; auto. rewrite map_app. cbn [map].
  change (h :: map f xs ++ [f x]) with ((h :: map f xs) ++ [f x]). apply last_last.
Qed.
Lemma header_last s : s_suffix s <> [] -> last (s_header s) 0 = last (s_suffix s) 0.
Proof.
  intros H. unfold s_header. change (AT :: s_name s ++ 46 :: s_suffix s) with ((AT :: s_name s) ++ [46] ++ s_suffix s).
  rewrite app_assoc. now rewrite last_app_ne.
Qed.
Lemma clean_last_ws s : clean_line s -> s <> [] /\ is_ws (last s 0) = false.
Proof. intros H. split; [now apply clean_nonnil|]. now rewrite clean_last. Qed.
Lemma sl_last s : s_ok s -> s_edge s -> last (sl s) [] <> [] /\ is_ws (last (last (sl s) []) 0) = false.
Proof.
  intros [_ H] E. unfold sl.
  destruct s as [n p|n p|n p|n p|n p|n c b]; cbn [s_body] in *.
  - destruct (last_map_snoc variable_reconstruct (s_header (SVar n p)) (map snd p)) as [Ep|(r & x & Ep & ->)].
    + rewrite Ep. cbn [map last]. split; [discriminate|]. rewrite header_last by discriminate. reflexivity.
    + destruct H as (_ & _ & L). apply map_snd_snoc in Ep as (r' & k & Ep). unfold variable_reconstruct. split.
      * destruct (dec_of_N _); discriminate.
      * apply last_colon. intros a x' Ex. eapply L; eauto.
  - destruct (last_map_snoc list_variable_reconstruct (s_header (SList n p)) (map snd p)) as [Ep|(r & x & Ep & ->)].
    + rewrite Ep. cbn [map last]. split; [discriminate|]. rewrite header_last by discriminate. reflexivity.
    + destruct H as (_ & _ & L). apply map_snd_snoc in Ep as (r' & k & Ep). unfold list_variable_reconstruct. split.
      * destruct (dec_of_N _); discriminate.
      * apply last_colon. intros a x' Ex. eapply L; eauto.
  - destruct (last_map_snoc component_reconstruct (s_header (SComp n p)) p) as [Ep|(r & x & Ep & ->)].
    + rewrite Ep. cbn [map last]. split; [discriminate|]. rewrite header_last by discriminate. reflexivity.
    + apply clean_last_ws, component_clean.
  - destruct (last_map_snoc event_reconstruct (s_header (SEv n p)) p) as [Ep|(r & x & Ep & ->)].
    + rewrite Ep. cbn [map last]. split; [discriminate|]. rewrite header_last by discriminate. reflexivity.
    + apply clean_last_ws, event_clean.
  - destruct (last_map_snoc more_block_reconstruct (s_header (SMb n p)) (map snd p)) as [Ep|(r & x & Ep & ->)].
    + rewrite Ep. cbn [map last]. split; [discriminate|]. rewrite header_last by discriminate. reflexivity.
    + destruct H as (_ & _ & L & _). apply map_snd_snoc in Ep as (r' & k & Ep). unfold more_block_reconstruct. split.
      * destruct (mb_id x); discriminate.
      * apply last_colon. intros a x' Ex. eapply L; eauto.
  - destruct (last_map_snoc block_reconstruct (s_header (SBlk n c b)) b) as [Ep|(r & x & Ep & ->)].
    + rewrite Ep. cbn [map last]. split; [discriminate|]. cbn [s_edge] in E. destruct E as [E|E]; [congruence|].
      rewrite header_last by discriminate. cbn [s_suffix]. destruct c as [|x c _] using rev_ind; [reflexivity|].
      rewrite app_assoc, last_last. eapply E. reflexivity.
    + apply clean_last_ws, block_clean.
Qed.
Lemma glines_last g : g <> [] -> g_ok g -> last (glines g) [] <> [] /\ is_ws (last (last (glines g) []) 0) = false.
Proof.
  intros Hn [H E]. destruct (exists_last Hn) as (r & s & Eg).
  assert (L : last (glines g) [] = last (sl s) []).
  { replace (glines g) with (sepcat (map sl g)) by (destruct g; [congruence|reflexivity]). rewrite Eg, map_app. cbn [map]. destruct r as [|a r]; [reflexivity|].
    rewrite sepcat_snoc by discriminate. rewrite last_app_ne by discriminate.
    change ([] :: sl s) with ([[]] ++ sl s). now rewrite last_app_ne by discriminate. }
  rewrite L. apply sl_last.
  - rewrite Forall_forall in H. apply H. rewrite Eg. apply in_or_app. right. now left.
  - eapply E. exact Eg.
Qed.
Lemma at_head gs s g : exists t, join NL (sepcat (map glines ((s :: g) :: gs))) = AT :: t.
Proof.
  cbn [map]. change (glines (s :: g)) with (sepcat (sl s :: map sl g)).
  assert (A : forall X : list str, exists t, join NL (s_header s :: X) = AT :: t).
  { intros X. unfold s_header. destruct X; [eexists; reflexivity|]. rewrite join_cons2. eexists. reflexivity. }
  assert (B : exists X, sepcat (sl s :: map sl g) = s_header s :: X).
  { unfold sl at 1. destruct (map sl g); [eexists; reflexivity|]. rewrite sepcat_cons. eexists. reflexivity. }
  destruct B as [X B]. rewrite B. destruct (map glines gs); [apply A|]. rewrite sepcat_cons. apply A.
Qed.
Lemma core_edge core s g r : Forall g_ok core -> core = (s :: g) :: r -> last core [] <> [] ->
  edge_ok (join NL (sepcat (map glines core))).
Proof.
  intros H E L. destruct (at_head r s g) as [t Ht]. rewrite <- E in Ht.
  assert (Hn : core <> []) by congruence. destruct (exists_last Hn) as (pre & lst & Ec).
  assert (Hl : lst <> []) by (rewrite Ec, last_last in L; auto).
  assert (G : g_ok lst) by (rewrite Forall_forall in H; apply H; rewrite Ec; apply in_or_app; right; now left).
  destruct (glines_last lst Hl G) as [G1 G2].
  assert (LL : last (sepcat (map glines core)) [] = last (glines lst) []).
  { rewrite Ec, map_app. cbn [map]. destruct pre as [|a pre]; [reflexivity|]. rewrite sepcat_snoc by discriminate.
    rewrite last_app_ne by discriminate. change ([] :: glines lst) with ([[]] ++ glines lst). now rewrite last_app_ne by apply glines_nonnil. }
  assert (J : last (join NL (sepcat (map glines core))) 0 = last (last (glines lst) []) 0).
  { rewrite join_last; [now rewrite LL| |now rewrite LL]. rewrite E. cbn [map]. apply sepcat_nonnil, glines_nonnil. }
  rewrite Ht in *. split; [reflexivity|]. now rewrite J.
Qed.
Lemma s_no_nl s : s_ok s -> Forall (fun l => ~ In NL l) (sl s).
Proof.
  intros [[Hn _] H]. unfold sl. constructor.
  - unfold s_header. intros [Hi|Hi]; [discriminate|]. rewrite in_app_iff in Hi. destruct Hi as [Hi|[Hi|Hi]]; [auto|discriminate|].
    destruct s; cbn [s_suffix] in Hi; try (revert Hi; in_lit). rewrite in_app_iff in Hi. destruct H as [(Hc & _) _].
    destruct Hi as [Hi|Hi]; [revert Hi; in_lit|auto].
  - destruct s as [n p|n p|n p|n p|n p|n c b]; cbn [s_body]; apply Forall_map.
    + eapply Forall_impl; [|apply variable_pool_lines; exact H]. cbn. tauto.
    + eapply Forall_impl; [|apply list_variable_pool_lines; exact H]. cbn. tauto.
    + apply Forall_forall. intros x _. apply clean_no_nl, component_clean.
    + apply Forall_forall. intros x _. apply clean_no_nl, event_clean.
    + eapply Forall_impl; [|apply more_block_pool_lines; exact H]. cbn. tauto.
    + apply Forall_forall. intros x _. apply clean_no_nl, block_clean.
Qed.
Lemma sepcat_forall (P : str -> Prop) gs : P [] -> Forall (Forall P) gs -> Forall P (sepcat gs).
Proof.
  intros P0 H. induction H as [|g gs Hg Hgs IH]; [constructor|]. destruct gs; [exact Hg|]. rewrite sepcat_cons. apply Forall_app. split; auto.
Qed.
(** the parser applied to the text of some groups *)
Lemma parse_groups mv gs : Forall g_ok gs -> logic_parse mv (trim (gtext gs)) = Ok (fold_left (s_apply mv) (reach (dropempty gs)) []).
Proof.
  intros H. destruct (gtext_core gs) as (core & T & R & I & C). rewrite T, R.
  assert (Hc : Forall g_ok core) by (rewrite Forall_forall in *; auto). clear T R I H gs.
  destruct C as [->|(s & g & r & E & L)]; [reflexivity|].
  assert (Hn : core <> []) by congruence. rewrite gtext_join by auto.
  rewrite !trim_ws_l by reflexivity. rewrite trim_id by (eapply core_edge; eauto).
  unfold logic_parse. rewrite split_join.
  - change (logic_run mv (sepcat (map glines core)) 0 [] = Ok (fold_left (s_apply mv) (reach core) [])). apply logic_run_groups.
    eapply Forall_impl; [|exact Hc]. now intros x [].
  - rewrite E. cbn [map]. apply sepcat_nonnil, glines_nonnil.
  - apply sepcat_forall; [auto|]. apply Forall_map. eapply Forall_impl; [|exact Hc]. intros x [Hx _]. unfold glines. destruct x.
    + constructor; auto.
    + apply sepcat_forall; [auto|]. apply Forall_map. eapply Forall_impl; [|exact Hx]. intros y. apply s_no_nl.
Qed.

(** ** the sections of a logic *)
Definition os {A} (o : option A) (f : A -> sect) : list sect := match o with Some a => [f a] | None => [] end.
Definition ss_var (x : screen_logic) := os (sl_variables x) (SVar (sl_name x)).
Definition ss_list (x : screen_logic) := os (sl_list_variables x) (SList (sl_name x)).
Definition ss_comp (x : screen_logic) := os (sl_components x) (SComp (sl_name x)).
Definition ss_ev (x : screen_logic) := os (sl_events x) (SEv (sl_name x)).
Definition ss_mb (x : screen_logic) := os (sl_more_blocks x) (SMb (sl_name x)).
Definition ss_blk (x : screen_logic) := map (fun kv => SBlk (sl_name x) (fst kv) (snd kv)) (sl_block_containers x).
Definition pool_sects (xs : list screen_logic) : list sect :=
  flat_map ss_var xs ++ flat_map ss_list xs ++ flat_map ss_comp xs ++ flat_map ss_ev xs ++ flat_map ss_mb xs.
Definition groups (xs : list screen_logic) : list (list sect) := map (fun s => [s]) (pool_sects xs) ++ map ss_blk xs.
Lemma sl_text (s : sect) (t u : str) : u = s_header s ++ [NL] ++ t -> t = join NL (s_body s) -> s_ok s -> s_edge s -> trim u = join NL (sl s).
Proof.
  intros -> -> H E. destruct (sl_last s H E) as [L1 L2]. unfold sl in *.
  assert (X : edge_ok (join NL (s_header s :: s_body s))) by (apply edge_lines; [reflexivity|auto|auto]).
  destruct (s_body s) as [|b bs].
  - cbn [join] in *. rewrite trim_ws_app_r by reflexivity. now apply trim_id.
  - rewrite join_cons2 in *. now apply trim_id.
Qed.
Lemma fold_app {A} (f : A -> str) l acc : fold_left (fun acc i => acc ++ f i) l acc = acc ++ concat (map f l).
Proof.
  revert acc; induction l as [|x l IH]; intros acc; cbn [fold_left map concat]; [now rewrite app_nil_r|]. now rewrite IH, <- app_assoc.
Qed.
Lemma container_text_sl n kv : container_text n kv = join NL (sl (SBlk n (fst kv) (snd kv))) ++ [NL; NL].
Proof.
  unfold container_text, block_container_reconstruct. rewrite fold_post. cbn [app]. unfold sl. cbn [s_body].
  assert (Hh : lit "@" ++ n ++ lit ".java_" ++ fst kv = s_header (SBlk n (fst kv) (snd kv))) by reflexivity.
  destruct (snd kv) as [|b bs] eqn:E.
  - cbn [map concat join]. rewrite <- Hh. change (lit "@") with [AT]. cbn [app]. now rewrite <- !app_assoc.
  - rewrite concat_post by discriminate. cbn [map]. rewrite join_cons2. rewrite <- Hh.
    change (lit "@") with [AT]. cbn [app]. rewrite <- !app_assoc. cbn [app]. reflexivity.
Qed.
Lemma sec_containers_text x : sec_containers x = concat (map (fun s => join NL (sl s) ++ [NL; NL]) (ss_blk x)).
Proof.
  unfold sec_containers, ss_blk. rewrite fold_app. cbn [app]. rewrite map_map. f_equal. apply map_ext. intros kv. apply container_text_sl.
Qed.
Lemma concat_sl g : g <> [] -> concat (map (fun s => join NL (sl s) ++ [NL; NL]) g) = join NL (sepcat (map sl g)) ++ [NL; NL].
Proof.
  induction g as [|s g IH]; [congruence|]. intros _. destruct g as [|s2 g].
  - cbn [map concat sepcat]. now rewrite app_nil_r.
  - change (map (fun s => join NL (sl s) ++ [NL; NL]) (s :: s2 :: g)) with ((join NL (sl s) ++ [NL; NL]) :: map (fun s => join NL (sl s) ++ [NL; NL]) (s2 :: g)).
    cbn [concat]. rewrite IH by discriminate. change (map sl (s :: s2 :: g)) with (sl s :: sl s2 :: map sl g). rewrite sepcat_cons.
    rewrite join_sep2; [|discriminate|apply sepcat_nonnil; discriminate]. rewrite <- !app_assoc. reflexivity.
Qed.
Lemma group_edge g : g <> [] -> g_ok g -> edge_ok (join NL (sepcat (map sl g))).
Proof.
  intros Hn H. destruct g as [|s g]; [congruence|].
  apply (core_edge [s :: g] s g []); [constructor; auto|reflexivity|discriminate].
Qed.
Lemma blk_text x : g_ok (ss_blk x) -> trim (sec_containers x) = join NL (glines (ss_blk x)).
Proof.
  intros H. rewrite sec_containers_text. destruct (ss_blk x) as [|s g] eqn:E; [reflexivity|].
  rewrite concat_sl by discriminate. rewrite trim_ws_app_r by reflexivity. apply trim_id. apply group_edge; [discriminate|exact H].
Qed.
Definition screen_ok (x : screen_logic) : Prop :=
  Forall s_ok (ss_var x ++ ss_list x ++ ss_comp x ++ ss_ev x ++ ss_mb x) /\ g_ok (ss_blk x).
Definition matches (t : str) (g : list sect) : Prop := trim t = join NL (glines g).
Lemma Forall2_flat {A} (f : A -> list str) (h : A -> list sect) xs : (forall x, In x xs -> Forall2 (fun t s => matches t [s]) (f x) (h x)) ->
  Forall2 matches (flat_map f xs) (map (fun s => [s]) (flat_map h xs)).
Proof.
  induction xs as [|x xs IH]; intros H; cbn [flat_map]; [constructor|]. rewrite map_app. apply Forall2_app.
  - specialize (H x (or_introl eq_refl)). induction H; cbn [map]; constructor; auto.
  - apply IH. intros y Hy. apply H. now right.
Qed.
Lemma os_match {A} (o : option A) (f : A -> str) (h : A -> sect) :
  (forall a, o = Some a -> matches (f a) [h a]) -> Forall2 (fun t s => matches t [s]) (osection o f) (os o h).
Proof. intros H. destruct o; cbn; constructor; auto. Qed.
Lemma sections_groups (l : logic) : Forall screen_ok (map snd l) -> Forall2 matches (logic_sections l) (groups (map snd l)).
Proof.
  intros H. unfold logic_sections, groups, pool_sects. cbv zeta. rewrite !map_app, <- !app_assoc. generalize dependent (map snd l). intros xs H.
  rewrite Forall_forall in H.
  assert (P : forall x s, In x xs -> In s (ss_var x ++ ss_list x ++ ss_comp x ++ ss_ev x ++ ss_mb x) -> s_ok s).
  { intros x s Hx Hs. destruct (H x Hx) as [F _]. rewrite Forall_forall in F. auto. }
  repeat apply Forall2_app; try (apply Forall2_flat; intros x Hx; apply os_match; intros p Ep; unfold matches; cbn [glines map sepcat]).
  - assert (O : s_ok (SVar (sl_name x) p)) by (apply (P x); auto; rewrite !in_app_iff; left; unfold ss_var; rewrite Ep; now left).
    eapply (sl_text (SVar (sl_name x) p)); [|apply variable_pool_text; apply O|exact O|exact I].
    unfold s_header. cbn [s_name s_suffix app]. rewrite <- app_assoc. reflexivity.
  - assert (O : s_ok (SList (sl_name x) p)) by (apply (P x); auto; rewrite !in_app_iff; right; left; unfold ss_list; rewrite Ep; now left).
    eapply (sl_text (SList (sl_name x) p)); [|apply list_variable_pool_text; apply O|exact O|exact I].
    unfold s_header. cbn [s_name s_suffix app]. rewrite <- app_assoc. reflexivity.
  - assert (O : s_ok (SComp (sl_name x) p)) by (apply (P x); auto; rewrite !in_app_iff; right; right; left; unfold ss_comp; rewrite Ep; now left).
    eapply (sl_text (SComp (sl_name x) p)); [|apply component_pool_text|exact O|exact I].
    unfold s_header. cbn [s_name s_suffix app]. rewrite <- app_assoc. reflexivity.
  - assert (O : s_ok (SEv (sl_name x) p)) by (apply (P x); auto; rewrite !in_app_iff; right; right; right; left; unfold ss_ev; rewrite Ep; now left).
    eapply (sl_text (SEv (sl_name x) p)); [|apply event_pool_text|exact O|exact I].
    unfold s_header. cbn [s_name s_suffix app]. rewrite <- app_assoc. reflexivity.
  - assert (O : s_ok (SMb (sl_name x) p)) by (apply (P x); auto; rewrite !in_app_iff; right; right; right; right; unfold ss_mb; rewrite Ep; now left).
    eapply (sl_text (SMb (sl_name x) p)); [|apply more_block_pool_text; apply O|exact O|exact I].
    unfold s_header. cbn [s_name s_suffix app]. rewrite <- app_assoc. reflexivity.
  - clear P. induction xs as [|x xs IH]; cbn [map]; constructor.
    + apply blk_text. apply H. now left.
    + apply IH. intros y Hy. apply H. now right.
Qed.
Lemma groups_ok xs : Forall screen_ok xs -> Forall g_ok (groups xs).
Proof.
  intros H. unfold groups. apply Forall_app. split.
  - apply Forall_map. unfold pool_sects. rewrite !Forall_app, !Forall_flat_map.
    assert (E : forall s, (match s with SBlk _ _ _ => False | _ => True end) -> s_ok s -> g_ok [s]).
    { intros s Hs O. split; [constructor; auto|]. intros [|? [|]] s' Es; try discriminate Es. injection Es as <-. destruct s; cbn in *; tauto. }
    rewrite Forall_forall in H. repeat split; apply Forall_forall; intros x Hx; destruct (H x Hx) as [F _]; rewrite !Forall_app in F;
      apply Forall_forall; intros s Hs; (apply E; [unfold ss_var, ss_list, ss_comp, ss_ev, ss_mb, os in Hs|
        destruct F as (F1 & F2 & F3 & F4 & F5); rewrite Forall_forall in *; auto]).
    + destruct (sl_variables x); cbn in Hs; [destruct Hs as [<-|[]]; exact I|tauto].
    + destruct (sl_list_variables x); cbn in Hs; [destruct Hs as [<-|[]]; exact I|tauto].
    + destruct (sl_components x); cbn in Hs; [destruct Hs as [<-|[]]; exact I|tauto].
    + destruct (sl_events x); cbn in Hs; [destruct Hs as [<-|[]]; exact I|tauto].
    + destruct (sl_more_blocks x); cbn in Hs; [destruct Hs as [<-|[]]; exact I|tauto].
  - apply Forall_map. eapply Forall_impl; [|exact H]. now intros x [].
Qed.
(** what reading back a written logic gives *)
Definition logic_ok (l : logic) : Prop :=
  NoDup (map fst l) /\ Forall (fun kv => fst kv = sl_name (snd kv) /\ screen_ok (snd kv) /\ NoDup (map fst (sl_block_containers (snd kv)))) l.
Lemma logic_reparse mv l : Forall screen_ok (map snd l) ->
  logic_parse mv (logic_reconstruct l) = Ok (fold_left (s_apply mv) (reach (dropempty (groups (map snd l)))) []).
Proof.
  intros H. rewrite <- parse_groups by now apply groups_ok. f_equal. unfold logic_reconstruct. f_equal.
  pose proof (sections_groups l H) as M. unfold gtext.
  change [NL; NL] with ([NL] ++ [NL]).
  rewrite (fold_app (fun i => ([NL] ++ [NL]) ++ trim i)). cbn [app]. f_equal.
  induction M as [|t g ts gs Hm M IH]; cbn [map]; [reflexivity|]. rewrite IH. f_equal. f_equal. f_equal. exact Hm.
Qed.
