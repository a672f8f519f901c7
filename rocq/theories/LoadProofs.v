(** Proofs for P_Loading.v: loading does what SpecLoad.v says. *)
From Coq Require Import Lia.
From Verif Require Import Base Str M_Color M_Raw M_Project M_File M_Library M_Resource M_View M_Logic M_Parsed A_Block A_View A_Screen A_Project
  SpecBlock SpecView SpecScreen SpecProject SpecLoad BlockProofs ScreenProofs ApiProjectProofs P_Screen.

(** ** One after the other *)
Lemma after_det {E A B} (p : res E A) (n n' : A -> Prop) (r r' : res E B) :
  (forall a, n a -> n' a -> r = r') -> after p n r -> after p n' r' -> r = r'.
Proof. destruct p; cbn; eauto; congruence. Qed.
Lemma nth_split {A} (l : list A) i x : nth_error l i = Some x -> exists a b, l = a ++ x :: b /\ length a = i.
Proof. apply nth_error_split. Qed.
Lemma in_order_det {X E A} (step : list X -> X -> res E A -> Prop) :
  (forall b x r r', step b x r -> step b x r' -> r = r') -> forall l r r', in_order step l r -> in_order step l r' -> r = r'.
Proof.
  intros D l r r'.
  assert (S : forall b1 x1 a1 b2 x2 a2 y, l = b1 ++ x1 :: a1 -> l = b2 ++ x2 :: a2 -> (length b1 < length b2)%nat ->
                (forall b z a, b2 = b ++ z :: a -> exists y, step b z (Ok y)) -> step b1 x1 y -> exists w, y = Ok w).
  { intros b1 x1 a1 b2 x2 a2 y E1 E2 L G Y. assert (N1 : nth_error l (length b1) = Some x1) by (rewrite E1, nth_error_app2, Nat.sub_diag; auto).
    rewrite E2, nth_error_app1 in N1 by exact L. apply nth_split in N1 as (p & q & -> & P).
    destruct (G p x1 q eq_refl) as (w & W). exists w. eapply D; [exact Y|].
    assert (p = b1); [|now subst]. rewrite <- app_assoc in E2. rewrite E1 in E2. symmetry in E2. clear -E2 P. revert b1 E2 P. induction p as [|z p IH]; intros [|z' b1] E P; cbn in *; try lia; auto.
    injection E as -> E. f_equal. apply IH; auto. }
  assert (T : forall b1 x1 a1 b2 x2 a2 bad1 bad2, l = b1 ++ x1 :: a1 -> l = b2 ++ x2 :: a2 ->
     (forall b z a, b2 = b ++ z :: a -> exists y, step b z (Ok y)) -> step b1 x1 bad1 -> fails_as bad1 r -> fails_as bad2 r' -> (length b1 <= length b2)%nat -> step b2 x2 bad2 -> r = r').
  { intros b1 x1 a1 b2 x2 a2 bad1 bad2 E1 E2 G Y F1 F2 L Y2. destruct (Nat.eq_dec (length b1) (length b2)) as [Q|Q].
    - assert (x1 = x2 /\ b1 = b2) as [<- <-].
      { rewrite E1 in E2. clear -E2 Q. revert b2 E2 Q. induction b1 as [|z p IH]; intros [|z' b2] E P; cbn in *; try lia; injection E as -> E; auto. destruct (IH b2 E) as [-> ->]; auto. }
      rewrite (D _ _ _ _ Y2 Y) in F2. destruct bad1; cbn in *; [contradiction|congruence|congruence].
    - destruct (S b1 x1 a1 b2 x2 a2 bad1 E1 E2 ltac:(lia) G Y) as (w & ->). contradiction. }
  intros [(ys & -> & L & H)|(b & x & a & bad & EQ & Y & F & G)] [(ys' & -> & L' & H')|(b' & x' & a' & bad' & EQ' & Y' & F' & G')].
  - f_equal. clear S T. assert (Q : forall i, (i < length l)%nat -> nth_error ys i = nth_error ys' i).
    { intros i I. destruct (nth_error l i) as [x|] eqn:N; [|apply nth_error_None in N; lia]. apply nth_split in N as (a & b & EQ & <-).
      destruct (H a x b EQ) as (y & -> & Y). destruct (H' a x b EQ) as (y' & -> & Y'). f_equal. pose proof (D _ _ _ _ Y Y'). congruence. }
    rewrite <- L in Q. assert (LL : length ys = length ys') by lia. clear -Q LL. revert ys' Q LL. induction ys as [|y ys IH]; intros [|y' ys'] Q LL; cbn in *; try discriminate; auto.
    pose proof (Q 0%nat ltac:(lia)) as Q0. cbn in Q0. injection Q0 as ->. f_equal. apply IH; [|lia]. intros i I. apply (Q (1 + i)%nat). lia.
  - destruct (H b' x' a' EQ') as (y & _ & Y). rewrite (D _ _ _ _ Y' Y) in F'. contradiction.
  - destruct (H' b x a EQ) as (y & _ & Y'). rewrite (D _ _ _ _ Y Y') in F. contradiction.
  - destruct (Nat.le_gt_cases (length b) (length b')) as [Q|Q].
    + eapply (T b x a b' x' a'); eauto.
    + destruct (S b' x' a' b x a bad' EQ' EQ Q G Y') as (w & ->). contradiction.
Qed.
Lemma in_order_nil {X E A} (step : list X -> X -> res E A -> Prop) : in_order step [] (Ok []).
Proof. left. exists []. repeat split. intros [|] ? ? EQ; discriminate. Qed.
Lemma in_order_cons {X E A} (step : list X -> X -> res E A -> Prop) x l p rest :
  step [] x p -> (forall y, p = Ok y -> in_order (fun b => step (x :: b)) l rest) ->
  in_order step (x :: l) (let* y := p in let* ys := rest in Ok (y :: ys)).
Proof.
  intros P R. destruct p as [y|e|]; cbn [bind].
  - specialize (R y eq_refl). destruct R as [(ys & -> & L & H)|(b & z & a & bad & -> & Y & F & G)].
    + left. exists (y :: ys). cbn. repeat split; [lia|]. intros [|x' b] z a EQ; cbn in EQ; injection EQ as <- ->; cbn; [eauto|]. now apply H with a.
    + right. exists (x :: b), z, a, bad. repeat split; auto.
      * destruct bad, rest; cbn in *; try contradiction; congruence.
      * intros [|x' b'] z' a' EQ; cbn in EQ; injection EQ as <- ->; eauto.
  - right. exists [], x, l, (Err e). cbn. repeat split; auto. intros [|] ? ? EQ; discriminate.
  - right. exists [], x, l, Panic. cbn. repeat split; auto. intros [|] ? ? EQ; discriminate.
Qed.
Lemma in_order_ext {X E A} (step step' : list X -> X -> res E A -> Prop) l r :
  (forall b x r, step b x r -> step' b x r) -> in_order step l r -> in_order step' l r.
Proof.
  intros S [(ys & -> & L & H)|(b & x & a & bad & EQ & Y & F & G)].
  - left. exists ys. repeat split; auto. intros b x a EQ. destruct (H b x a EQ) as (y & N & Y). eauto.
  - right. exists b, x, a, bad. repeat split; auto. intros b' z' a' E'. destruct (G _ _ _ E') as (y & Y'). eauto.
Qed.

(** ** Containers *)
Lemma code_under_det bc used k r r' : code_under bc used k r -> code_under bc used k r' -> r = r'.
Proof.
  intros [[U ->]|[(U & G & ->)|(U & c & G & ->)]] [[U' ->]|[(U' & G' & ->)|(U' & c' & G' & ->)]]; try tauto; congruence.
Qed.
Lemma code_under_ext bc used used' k r : (used k <-> used' k) -> code_under bc used k r -> code_under bc used' k r.
Proof. unfold code_under. tauto. Qed.
Lemma code_under_rm bc used k x r : code_under (sremove x bc) used k r -> code_under bc (fun n => n = x \/ used n) k r.
Proof.
  unfold code_under. destruct (list_eq_dec N.eq_dec k x) as [->|N].
  - rewrite sget_remove_same. intros [[U ->]|[(U & G & ->)|(U & c & G & ->)]]; [left|left|discriminate]; auto.
  - rewrite sget_remove_other by exact N. intros [[U ->]|[(U & G & ->)|(U & c & G & ->)]]; [left; auto|right; left|right; right]; (split; [tauto|eauto]).
Qed.
Lemma code_here bc k : code_under bc (fun _ => False) k (blocks_try_from (fst (take_container k bc))).
Proof. unfold code_under, take_container. cbn [fst]. destruct (sget k bc) as [c|] eqn:G; cbn [or_empty]; [right; right|right; left]; eauto. Qed.

Lemma stands_det r e e' : stands_for r e -> stands_for r e' -> ae_name e = ae_name e' /\ ae_type e = ae_type e'.
Proof.
  intros [N H] [N' H']. split; [congruence|].
  destruct H as [[A B]|[[A B]|[A B]]], H' as [[A' B']|[[A' B']|[A' B']]]; congruence.
Qed.
Lemma container_det e e' k k' : ae_name e = ae_name e' -> ae_type e = ae_type e' -> container_name e k -> container_name e' k' -> k = k'.
Proof.
  unfold container_name. intros N T. rewrite <- T, <- N. destruct (ae_type e); try congruence.
  intros [[A ->]|[A ->]] [[A' ->]|[A' ->]]; congruence.
Qed.

(** ** More blocks, components, events *)
Lemma more_block_step_det bc b x r r' : more_block_step bc b x r -> more_block_step bc b x r' -> r = r'.
Proof.
  unfold more_block_step. apply after_det. intros sp (c & C & H) (c' & C' & H'). rewrite (code_under_det _ _ _ _ _ C' C) in H'.
  revert H H'. apply after_det. congruence.
Qed.
Lemma component_step_det b x r r' : component_step b x r -> component_step b x r' -> r = r'.
Proof. unfold component_step. destruct (from_parser_component x); congruence. Qed.
Lemma event_step_det bc m b x r r' : event_step bc m b x r -> event_step bc m b x r' -> r = r'.
Proof.
  unfold event_step. intros [[N ->]|(e & k & c & S & K & C & H)] [[N' ->]|(e' & k' & c' & S' & K' & C' & H')]; try solve [exfalso; eauto].
  - reflexivity.
  - destruct (stands_det _ _ _ S S') as [E1 E2]. rewrite <- E1, <- E2 in H'. rewrite <- (container_det _ _ _ _ E1 E2 K K') in *.
    rewrite (code_under_det _ _ _ _ _ C' C) in H'. revert H H'. apply after_det. congruence.
Qed.
Lemma take_more_blocks_order l : forall bc,
  in_order (more_block_step bc) l (rmap fst (take_more_blocks l bc)) /\
  forall ms bc', take_more_blocks l bc = Ok (ms, bc') -> bc' = rm_all (map more_block_key (map fst l)) bc.
Proof.
  induction l as [|[id mb] l IH]; intros bc; cbn [take_more_blocks].
  - split; [apply in_order_nil|]. intros ms bc' [= <- <-]. reflexivity.
  - set (key := more_block_container id). change (more_block_key id) with key. destruct (IH (sremove key bc)) as [O R]. split.
    + match goal with |- in_order _ _ ?t => replace t with
        (let* y := (let* spec := map_err (SeMoreBlockSpec id) (parse_wo_params (mb_spec mb)) in
                    let* code := map_err (SeBlocks key) (blocks_try_from (fst (take_container key bc))) in
                    Ok (id, {| am_name := id; am_spec := spec; am_code := code |})) in
         let* ys := rmap fst (take_more_blocks l (sremove key bc)) in Ok (y :: ys)) end.
      2:{ destruct (parse_wo_params (mb_spec mb)) as [sp| |]; cbn; auto. unfold take_container. cbn [fst].
          destruct (blocks_try_from _) as [code| |]; cbn; auto. destruct (take_more_blocks l (sremove key bc)) as [[ms bc']| |]; reflexivity. }
      apply in_order_cons.
      * unfold more_block_step. cbn [fst snd]. destruct (parse_wo_params (mb_spec mb)) as [sp| |]; cbn [map_err bind after]; auto. exists (blocks_try_from (fst (take_container key bc))). split.
        -- eapply code_under_ext; [|apply code_here]. unfold used_by_more_blocks. cbn. split; [tauto|]. intros (i & [] & _).
        -- destruct (blocks_try_from _); reflexivity.
      * intros y _. revert O. apply in_order_ext. intros b [id' mb'] r. unfold more_block_step. cbn [fst snd].
        destruct (parse_wo_params (mb_spec mb')) as [sp| |]; cbn [map_err after]; auto. intros (c & C & H). exists c. split; [|exact H].
        apply code_under_rm in C. revert C. apply code_under_ext. unfold used_by_more_blocks. cbn [map fst In]. split.
        -- intros [->|(i & I & ->)]; [exists id|exists i]; auto.
        -- intros (i & [<-|I] & ->); [left|right]; eauto.
    + intros ms bc' H. apply bind_ok in H as (sp & _ & H). unfold take_container in H. apply bind_ok in H as (code & _ & H).
      apply bind_ok in H as ([ms' bc''] & K & [= <- <-]). now apply R in K.
Qed.
Lemma take_components_order l : in_order component_step l (map_err SeUnknownComponent (take_components l)).
Proof.
  induction l as [|c l IH]; cbn [take_components]; [apply in_order_nil|].
  match goal with |- in_order _ _ ?t => replace t with
    (let* y := (let* k := map_err SeUnknownComponent (from_parser_component c) in Ok (co_id c, k)) in
     let* ys := map_err SeUnknownComponent (take_components l) in Ok (y :: ys)) end.
  2:{ destruct (from_parser_component c); cbn; auto. destruct (take_components l); reflexivity. }
  apply in_order_cons.
  - unfold component_step. destruct (from_parser_component c) as [k|e|] eqn:K; cbn [map_err bind]; auto.
    + do 2 f_equal. unfold from_parser_component in K. repeat (match type of K with context [match ?x with _ => _ end] => destruct x end; try discriminate K); now injection K as <-.
    + exfalso. unfold from_parser_component in K. repeat (match type of K with context [match ?x with _ => _ end] => destruct x end; try discriminate K).
  - intros y _. exact IH.
Qed.
Lemma event_try_spec raw : (exists e, event_try_from raw = Ok e /\ stands_for raw e) \/
  ((~ exists e, stands_for raw e) /\ event_try_from raw = Err {| ue_name := ev_name raw; ue_type := ev_type raw |}).
Proof.
  destruct (C42_reading raw) as (R1 & R2 & R3 & R4). destruct (event_try_from raw) as [e|u|] eqn:E.
  - left. exists e. split; [reflexivity|]. now apply R1.
  - right. destruct (R3 u eq_refl) as [A B]. split; [|f_equal; destruct u; cbn in *; congruence].
    intros (e & _ & H). apply R2; [eauto|]. tauto.
  - now elim R4.
Qed.
Lemma take_events_order l : forall bc,
  in_order (event_step bc []) l (take_events l bc).
Proof.
  induction l as [|raw l IH]; intros bc; cbn [take_events]; [apply in_order_nil|].
  destruct (event_try_spec raw) as [(e & E & S)|[N E]]; rewrite E; cbn [map_err bind].
  - unfold take_container. set (key := get_block_container_id e). pose proof (proj1 (proj1 (C42_container e key [])) eq_refl) as K.
    match goal with |- in_order _ _ ?t => replace t with
      (let* y := (let* code := map_err (SeBlocks key) (blocks_try_from (fst (take_container key bc))) in
                  Ok {| ae_name := ae_name e; ae_type := ae_type e; ae_code := code |}) in
       let* ys := take_events l (sremove key bc) in Ok (y :: ys)) end.
    2:{ unfold take_container. cbn [fst]. destruct (blocks_try_from _); reflexivity. }
    apply in_order_cons.
    + right. exists e, key, (blocks_try_from (fst (take_container key bc))). split; [exact S|]. split; [exact K|]. split.
      * eapply code_under_ext; [|apply code_here]. unfold used_by_more_blocks, used_by_events. cbn. split; [tauto|].
        intros [(i & [] & _)|(r & x & [] & _)].
      * destruct (blocks_try_from _); reflexivity.
    + intros y _. specialize (IH (sremove key bc)). revert IH. apply in_order_ext. intros b x r. unfold event_step.
      intros [H|(e' & k & c & S' & K' & C & H)]; [now left|right]. exists e', k, c. split; [exact S'|]. split; [exact K'|]. split; [|exact H].
      apply code_under_rm in C. revert C. apply code_under_ext. unfold used_by_more_blocks, used_by_events. cbn. split.
      * intros [->|[(i & [] & _)|(r' & x' & I & Q)]]; right; [exists raw, e|exists r', x']; auto.
      * intros [(i & [] & _)|(r' & x' & [<-|I] & S2 & K2)]; [left|right; right; eauto].
        destruct (stands_det _ _ _ S S2) as [E1 E2]. symmetry. eapply container_det; eauto.
  - right. exists [], raw, l, (Err (SeUnknownEvent {| ue_name := ev_name raw; ue_type := ev_type raw |})). repeat split; [left; auto|].
    intros [|] ? ? Q; discriminate.
Qed.
Lemma take_events_after mbs l bc :
  in_order (event_step bc mbs) l (take_events l (rm_all (map more_block_key (map fst mbs)) bc)).
Proof.
  pose proof (take_events_order l (rm_all (map more_block_key (map fst mbs)) bc)) as H. revert H. apply in_order_ext.
  intros b x r [H|(e & k & c & S & K & C & H)]; [now left|right]. exists e, k, c. split; [exact S|]. split; [exact K|]. split; [|exact H].
  clear -C. revert C. unfold code_under. rewrite sget_rm_all.
  assert (U : used_by_more_blocks mbs k <-> mem k (map more_block_key (map fst mbs)) = true).
  { rewrite mem_in, in_map_iff. unfold used_by_more_blocks. split; intros (i & A & B); exists i; auto. }
  assert (U0 : ~ used_by_more_blocks [] k) by (intros (i & [] & _)).
  destruct (mem k _).
  - intros [[A ->]|[(A & B & ->)|(A & x' & B & _)]]; [left; split; [left; now apply U|reflexivity]|left; split; [left; now apply U|reflexivity]|discriminate].
  - assert (N : ~ used_by_more_blocks mbs k) by (rewrite U; discriminate). intuition.
Qed.
Lemma event_list_eq le l : event_list le l <-> l = or_empty (with_on_create le).
Proof.
  unfold event_list, with_on_create. rewrite <- smem_keys. change INITIALIZE with (lit "onCreate_initializeLogic").
  destruct (smem _ _).
  - change on_create_event with {| ev_name := lit "onCreate"; ev_type := 3; ev_target_id := lit "onCreate"; ev_target_type := 0 |}.
    cbn [or_empty]. split; [intros [[_ ->]|[H _]]; [reflexivity|now elim H]|auto].
  - split; [intros [[H _]|[_ ->]]; [discriminate|reflexivity]|intros ->; right; split; [discriminate|reflexivity]].
Qed.
Lemma screen_from_parsed_reads ln jn fe ve le fab : screen_reads ln jn fe ve le fab (screen_from_parsed ln jn fe ve le fab).
Proof.
  unfold screen_reads, screen_from_parsed. destruct (parse_raw_layout ve) as [views|e|]; cbn [map_err bind after]; auto.
  destruct (take_more_blocks_order (or_empty (sl_more_blocks le)) (sl_block_containers le)) as [M R].
  exists (rmap fst (take_more_blocks (or_empty (sl_more_blocks le)) (sl_block_containers le))). split; [exact M|].
  destruct (take_more_blocks _ _) as [[ms bc]|e|]; cbn [rmap bind after fst]; auto. specialize (R ms bc eq_refl). subst bc.
  exists (map_err SeUnknownComponent (take_components (or_empty (sl_components le)))). split; [apply take_components_order|].
  destruct (take_components _) as [cs|e|]; cbn [map_err bind after]; auto.
  eexists _, _. split; [apply event_list_eq; reflexivity|]. split; [apply take_events_after|].
  destruct (take_events _ _) as [es|e|]; cbn [bind after]; auto.
Qed.
Lemma screen_reads_det ln jn fe ve le fab r r' : screen_reads ln jn fe ve le fab r -> screen_reads ln jn fe ve le fab r' -> r = r'.
Proof.
  unfold screen_reads. apply after_det. intros views (ms & M & H) (ms' & M' & H').
  rewrite (in_order_det _ (more_block_step_det _) _ _ _ M' M) in H'. revert H H'. apply after_det. clear. intros m (cs & C & H) (cs' & C' & H').
  rewrite (in_order_det _ component_step_det _ _ _ C' C) in H'. revert H H'. apply after_det. clear. intros c (raw & es & R & E & H) (raw' & es' & R' & E' & H').
  apply event_list_eq in R, R'. subst raw raw'. rewrite (in_order_det _ (event_step_det _ _) _ _ _ E' E) in H'. revert H H'. apply after_det. congruence.
Qed.

(** ** Projects *)
Lemma unused_det {V} (m : smap V) u k o o' : unused m u k o -> unused m u k o' -> o = o'.
Proof. intros [[A ->]|[A ->]] [[B ->]|[B ->]]; tauto. Qed.
Lemma unused_rm {V} (m : smap V) u k : unused m u k (sget k (rm_all u m)).
Proof. unfold unused. rewrite sget_rm_all. destruct (mem k u) eqn:M; [left|right]; [apply mem_in in M|apply mem_not in M]; auto. Qed.
Lemma screen_parts_det v b fe ve le fab ve' le' fab' : screen_parts v b fe ve le fab -> screen_parts v b fe ve' le' fab' -> ve = ve' /\ le = le' /\ fab = fab'.
Proof.
  intros ((o1 & A1 & ->) & (o2 & A2 & ->) & (o3 & A3 & ->)) ((p1 & B1 & ->) & (p2 & B2 & ->) & (p3 & B3 & ->)).
  rewrite (unused_det _ _ _ _ _ A1 B1), (unused_det _ _ _ _ _ A2 B2), (unused_det _ _ _ _ _ A3 B3). auto.
Qed.
Lemma screen_step_det v b fe r r' : screen_step v b fe r -> screen_step v b fe r' -> r = r'.
Proof.
  intros (ve & le & fab & s & P & S & ->) (ve' & le' & fab' & s' & P' & S' & ->).
  destruct (screen_parts_det _ _ _ _ _ _ _ _ _ P P') as (<- & <- & <-). now rewrite (screen_reads_det _ _ _ _ _ _ _ _ S S').
Qed.
Lemma custom_view_step_det v b fe r r' : custom_view_step v b fe r -> custom_view_step v b fe r' -> r = r'.
Proof.
  intros (o & U & H) (o' & U' & H'). rewrite (unused_det _ _ _ _ _ U' U) in H'. destruct o as [lay|]; [|congruence].
  revert H H'. apply after_det. congruence.
Qed.
Lemma library_reads_det {A} n i (a : A) r r' : library_reads n i a r -> library_reads n i a r' -> r = r'.
Proof.
  intros [[A1 ->]|[[A1 ->]|(A1 & A2 & ->)]] [[B1 ->]|[[B1 ->]|(B1 & B2 & ->)]]; try contradiction; auto; rewrite A1 in B1; discriminate.
Qed.
Lemma library_conv_reads {A} n i (a : A) : library_reads n i a (library_conv n i a).
Proof.
  unfold library_reads, library_conv. destruct (str_eqb_spec (li_use_yn i) (lit "Y")) as [E|E]; [auto|].
  destruct (str_eqb_spec (li_use_yn i) (lit "N")) as [E'|E']; auto.
Qed.
Lemma resource_step_det t rnd files b it r r' : resource_step t rnd files b it r -> resource_step t rnd files b it r' -> r = r'.
Proof.
  unfold resource_step. destruct files as [m|]; [|congruence]. intros (o & U & ->) (o' & U' & ->). now rewrite (unused_det _ _ _ _ _ U U').
Qed.
Lemma take_resources_order t rnd rf l : forall pre,
  in_order (fun b => resource_step t rnd rf (pre ++ b)) l
    (take_resources t rnd (length pre) l (option_map (rm_all (map ri_full_name pre)) rf)).
Proof.
  induction l as [|it l IH]; intros pre; cbn [take_resources]; [apply in_order_nil|].
  set (rf1 := match option_map _ rf with Some m => Some (sremove (ri_full_name it) m) | None => None end).
  assert (R : rf1 = option_map (rm_all (map ri_full_name (pre ++ [it]))) rf).
  { unfold rf1. destruct rf as [m|]; [|reflexivity]. cbn. f_equal. rewrite map_app. unfold rm_all. now rewrite fold_left_app. }
  match goal with |- in_order _ _ ?x => replace x with
    (let* y := (let* w := (match option_map (rm_all (map ri_full_name pre)) rf with
               | Some m => ok_or (XMissingResourceFile (ri_name it) (ri_full_name it) t) (sget (ri_full_name it) m)
               | None => Ok (WU32Id (rnd (length pre)) (ri_full_name it) t)
               end) in Ok (ri_name it, w)) in
     let* ys := take_resources t rnd (S (length pre)) l rf1 in Ok (y :: ys)) end.
  2:{ destruct rf as [m|]; [|reflexivity]. cbn. destruct (sget _ _); reflexivity. }
  apply in_order_cons.
  - rewrite app_nil_r. unfold resource_step. destruct rf as [m|]; [|reflexivity]. cbn [option_map].
    exists (sget (ri_full_name it) (rm_all (map ri_full_name pre) m)). split; [apply unused_rm|]. now destruct (sget _ _).
  - intros _ _. specialize (IH (pre ++ [it])). rewrite app_length in IH. cbn in IH. rewrite Nat.add_1_r, <- R in IH.
    revert IH. apply in_order_ext. intros b x r. now rewrite <- app_assoc.
Qed.
Lemma take_screens_order v l : forall pre,
  in_order (fun b => screen_step v (pre ++ b)) l
    (rmap fst (take_screens l (rm_all (map fi_filename pre) (vw_layouts (pp_view v)))
                 (rm_all (map view_name_to_logic (map fi_filename pre)) (pp_logic v)) (rm_all (map fi_filename pre) (vw_fabs (pp_view v))))).
Proof.
  induction l as [|fe l IH]; intros pre; cbn [take_screens]; [apply in_order_nil|].
  set (lays := rm_all (map fi_filename pre) (vw_layouts (pp_view v))).
  set (lgs := rm_all (map view_name_to_logic (map fi_filename pre)) (pp_logic v)).
  set (fabs := rm_all (map fi_filename pre) (vw_fabs (pp_view v))).
  set (name := fi_filename fe).
  set (lg := match sget (view_name_to_logic name) lgs with Some x => x | None => screen_new_empty name end).
  match goal with |- in_order _ _ ?x => replace x with
    (let* y := map_err (XScreen (view_name_to_logic name) name)
                (screen_from_parsed name (sl_name lg) fe (or_empty (sget name lays)) lg (option_map view_from (sget name fabs))) in
     let* ys := rmap fst (take_screens l (sremove name lays) (sremove (view_name_to_logic name) lgs) (sremove name fabs)) in Ok (y :: ys)) end.
  2:{ fold lg. destruct (screen_from_parsed _ _ _ _ _ _); cbn; auto. destruct (take_screens _ _ _ _) as [[? ?]| |]; reflexivity. }
  apply in_order_cons.
  - rewrite app_nil_r. eexists _, lg, _, _. split; [|split; [apply screen_from_parsed_reads|reflexivity]].
    split; [|split]; (eexists; split; [apply unused_rm|reflexivity]).
  - intros _ _. specialize (IH (pre ++ [fe])). rewrite !map_app in IH. unfold rm_all in IH. rewrite !fold_left_app in IH.
    revert IH. apply in_order_ext. intros b x r. now rewrite <- app_assoc.
Qed.
Lemma take_custom_views_order v l : forall pre,
  in_order (fun b => custom_view_step v (pre ++ b)) l
    (take_custom_views l (rm_all (map fi_filename (f_activities (pp_file v) ++ pre)) (vw_layouts (pp_view v)))).
Proof.
  induction l as [|fe l IH]; intros pre; cbn [take_custom_views]; [apply in_order_nil|].
  set (lays := rm_all (map fi_filename (f_activities (pp_file v) ++ pre)) (vw_layouts (pp_view v))).
  set (name := fi_filename fe).
  match goal with |- in_order _ _ ?x => replace x with
    (let* y := (let* lay := ok_or (XMissingCustomViewLayout name) (sget name lays) in
                let* views := map_err (XCustomViewLayout name) (parse_raw_layout lay) in
                Ok {| cv_res_name := name; cv_layout := views |}) in
     let* ys := take_custom_views l (sremove name lays) in Ok (y :: ys)) end.
  2:{ destruct (sget name lays) as [lay|]; cbn; auto. destruct (parse_raw_layout lay); reflexivity. }
  apply in_order_cons.
  - rewrite app_nil_r. exists (sget name lays). split; [apply unused_rm|]. destruct (sget name lays) as [lay|]; [|reflexivity].
    cbn [ok_or bind]. fold name. destruct (parse_raw_layout lay); reflexivity.
  - intros _ _. specialize (IH (pre ++ [fe])). rewrite app_assoc, map_app in IH. unfold rm_all in IH. rewrite fold_left_app in IH.
    revert IH. apply in_order_ext. intros b x r. now rewrite <- app_assoc.
Qed.
Lemma in_order_after {X E A} (step : list X -> X -> res E A -> Prop) l r : in_order (fun b => step ([] ++ b)) l r -> in_order step l r.
Proof. apply in_order_ext. auto. Qed.
Lemma project_try_from_reads rnd v : project_reads rnd v (project_try_from rnd v).
Proof.
  unfold project_reads, project_try_from.
  exists (rmap fst (take_screens (f_activities (pp_file v)) (vw_layouts (pp_view v)) (pp_logic v) (vw_fabs (pp_view v)))). split; [apply in_order_after, (take_screens_order v _ [])|].
  destruct (take_screens _ _ _ _) as [[ss lays]|e|] eqn:TS; cbn [rmap bind after fst]; auto.
  apply take_screens_iff in TS as (_ & -> & _).
  eexists. split; [apply in_order_after; pose proof (take_custom_views_order v (f_custom_views (pp_file v)) []) as H; rewrite app_nil_r in H; exact H|].
  destruct (take_custom_views _ _) as [cvs|e|]; cbn [bind after]; auto.
  eexists. split; [apply library_conv_reads|]. destruct (library_conv _ (l_firebase _) _) as [fb|e|]; cbn [bind after]; auto.
  eexists. split; [apply library_conv_reads|]. destruct (library_conv _ (l_admob _) _) as [am|e|]; cbn [bind after]; auto.
  eexists. split; [apply library_conv_reads|]. destruct (library_conv _ (l_google_map _) _) as [gm|e|]; cbn [bind after]; auto.
  assert (Z : forall (o : option (smap res_wrapper)), option_map (rm_all (map ri_full_name [])) o = o) by (intros [|]; reflexivity).
  eexists. split; [apply in_order_after; pose proof (take_resources_order RImage (rnd RImage) (option_map rf_images (pp_resource_files v)) (rs_images (pp_resource v)) []) as H; rewrite Z in H; exact H|].
  cbn [length]. destruct (take_resources RImage _ _ _ _) as [im|e|]; cbn [bind after]; auto.
  eexists. split; [apply in_order_after; pose proof (take_resources_order RSound (rnd RSound) (option_map rf_sounds (pp_resource_files v)) (rs_sounds (pp_resource v)) []) as H; rewrite Z in H; exact H|].
  cbn [length]. destruct (take_resources RSound _ _ _ _) as [so|e|]; cbn [bind after]; auto.
  eexists. split; [apply in_order_after; pose proof (take_resources_order RFont (rnd RFont) (option_map rf_fonts (pp_resource_files v)) (rs_fonts (pp_resource v)) []) as H; rewrite Z in H; exact H|].
  cbn [length]. destruct (take_resources RFont _ _ _ _) as [fo|e|]; cbn [bind after]; auto.
  eexists. split; [|reflexivity]. apply str_eqb_eq.
Qed.
Lemma project_reads_det rnd v r r' : project_reads rnd v r -> project_reads rnd v r' -> r = r'.
Proof.
  unfold project_reads.
  intros (a & A & H) (a' & A' & H'). rewrite (in_order_det _ (screen_step_det _) _ _ _ A' A) in H'. revert H H'. apply after_det. clear A A'. intros ss.
  intros (b & A & H) (b' & A' & H'). rewrite (in_order_det _ (custom_view_step_det _) _ _ _ A' A) in H'. revert H H'. apply after_det. clear A A'. intros cvs.
  intros (c & A & H) (c' & A' & H'). rewrite (library_reads_det _ _ _ _ _ A' A) in H'. revert H H'. apply after_det. clear A A'. intros fb.
  intros (d & A & H) (d' & A' & H'). rewrite (library_reads_det _ _ _ _ _ A' A) in H'. revert H H'. apply after_det. clear A A'. intros am.
  intros (e & A & H) (e' & A' & H'). rewrite (library_reads_det _ _ _ _ _ A' A) in H'. revert H H'. apply after_det. clear A A'. intros gm.
  intros (f & A & H) (f' & A' & H'). rewrite (in_order_det _ (resource_step_det _ _ _) _ _ _ A' A) in H'. revert H H'. apply after_det. clear A A'. intros im.
  intros (g & A & H) (g' & A' & H'). rewrite (in_order_det _ (resource_step_det _ _ _) _ _ _ A' A) in H'. revert H H'. apply after_det. clear A A'. intros so.
  intros (h & A & H) (h' & A' & H'). rewrite (in_order_det _ (resource_step_det _ _ _) _ _ _ A' A) in H'. revert H H'. apply after_det. clear A A'. intros fo.
  intros (x & X & ->) (y & Y & ->). assert (x = y) as <-; [|reflexivity]. destruct x, y; auto; [symmetry; now apply Y, X|now apply X, Y].
Qed.
Lemma parse_from_reads mv ex w : raw_reads mv ex w (parse_from mv ex w).
Proof.
  unfold raw_reads, parse_from.
  destruct (project_parse _); cbn [map_err bind after]; auto. destruct (file_parse _); cbn [map_err bind after]; auto.
  destruct (library_parse _); cbn [map_err bind after]; auto. destruct (resource_parse _); cbn [map_err bind after]; auto.
  destruct (view_parse _); cbn [map_err bind after]; auto. destruct (logic_parse _ _); cbn [map_err bind after]; auto.
  destruct (rp_resource_files w) as [ws|]; [|reflexivity]. destruct (res_files_try_from _ _); reflexivity.
Qed.
Lemma raw_reads_det mv ex w r r' : raw_reads mv ex w r -> raw_reads mv ex w r' -> r = r'.
Proof.
  unfold raw_reads. do 6 (apply after_det; intros ?). destruct (rp_resource_files w); [|congruence]. apply after_det. congruence.
Qed.
