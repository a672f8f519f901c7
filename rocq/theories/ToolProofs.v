(** Proofs about the example programs ([E_Examples.v]). *)
From Verif Require Import Base Spec Str Dec Utf8 Utf8Proofs Crypto CryptoProofs SpecJson SpecNumber ShortestProofs SpecTools SpecBlock BlockContentProofs BlockWriteProofs.
From Verif Require Import M_Raw M_Project M_File M_Library M_Resource M_View M_Logic M_Parsed A_Block A_Screen A_Project E_Examples.

(** ** Lines *)
Lemma text_lines_app a b : text_of_lines (a ++ b) = text_of_lines a ++ text_of_lines b.
Proof. unfold text_of_lines. now rewrite map_app, concat_app. Qed.
Lemma text_lines_cons l ls : text_of_lines (l :: ls) = println l ++ text_of_lines ls.
Proof. reflexivity. Qed.
Lemma text_lines_map {A} (f : A -> str) (g : A -> str) l : (forall x, g x = println (f x)) -> flat_map g l = text_of_lines (map f l).
Proof. intros H. unfold text_of_lines. rewrite flat_map_concat_map, map_map. f_equal. apply map_ext. exact H. Qed.
(** each part of a listing made of lines *)
Lemma text_lines_parts {A} (rel : A -> list str -> Prop) (g : A -> str) l :
  Forall (fun x => exists ls, rel x ls /\ g x = text_of_lines ls) l ->
  exists parts, Forall2 rel l parts /\ flat_map g l = text_of_lines (concat parts).
Proof.
  induction 1 as [|x l (ls & R & E) _ (parts & F & IH)]; [exists []; split; [constructor|reflexivity]|].
  exists (ls :: parts). split; [now constructor|]. cbn [flat_map concat]. now rewrite text_lines_app, E, IH.
Qed.
(** lines without newlines can be told apart *)
Lemma text_lines_inj a b : Forall (fun l => ~ In 10 l) a -> Forall (fun l => ~ In 10 l) b -> text_of_lines a = text_of_lines b -> a = b.
Proof.
  intros A. revert b. induction A as [|x a X A IH]; intros b B E.
  - destruct b as [|y b]; [reflexivity|]. rewrite text_lines_cons in E. unfold println in E. destruct y; discriminate.
  - destruct B as [|y b Y B].
    + rewrite text_lines_cons in E. unfold println in E. destruct x; discriminate.
    + rewrite !text_lines_cons in E. unfold println in E. rewrite <- !app_assoc in E. cbn [app] in E.
      assert (S : split_on 10 (x ++ 10 :: text_of_lines a) = split_on 10 (y ++ 10 :: text_of_lines b)) by now rewrite E.
      rewrite !split_on_app in S by assumption. injection S as -> _. f_equal. apply IH; [assumption|]. apply app_inv_head in E. now injection E.
Qed.

(** ** Numerals *)
Lemma dec_numeral n : numeral n (dec_of_N n).
Proof.
  split; [split; [apply dec_of_N_nonnil|apply dec_digits_F]|]. split; [apply decimal_dec|]. intros r E. destruct (N.eq_dec n 0) as [->|H].
  - injection E as <-. reflexivity.
  - apply dec_of_N_lead in H. rewrite E in H. cbn in H. congruence.
Qed.
Lemma members_count {A} (o : option (list A)) : members o (count (or_empty o)).
Proof. unfold members, count. destruct o; apply dec_numeral. Qed.

(** ** Listings *)
Lemma resource_listing_lines r : resource_listing r = text_of_lines (resource_lines r).
Proof.
  unfold resource_listing, resource_lines. rewrite !(text_lines_map resource_item_line res_line) by reflexivity. rewrite !text_lines_app. reflexivity.
Qed.
Lemma file_listing_lines dbg x : file_listing dbg x = text_of_lines (file_lines dbg x).
Proof.
  unfold file_listing, file_lines. cbv zeta. rewrite !(text_lines_map (fun i => lit " - " ++ fi_filename i ++ lit ": " ++ dbg i) (file_line dbg)) by reflexivity.
  rewrite !text_lines_app. reflexivity.
Qed.
Lemma view_lines_numbered l : forall k, exists ls, length ls = length l /\
  (forall i x t, nth_error l i = Some x -> nth_error ls i = Some t -> view_line (k + i) x t) /\ view_lines (N.of_nat k) l = text_of_lines ls.
Proof.
  induction l as [|v l IH]; intros k.
  - exists []. split; [reflexivity|]. split; [|reflexivity]. intros [|i] x t H; discriminate H.
  - destruct (IH (S k)) as (ls & L & H & E).
    exists ((lit "  " ++ dec_of_N (N.of_nat k) ++ lit ". id: " ++ av_id v ++ lit ", type: " ++ dec_of_N (av_type v)) :: ls).
    split; [cbn [length]; congruence|]. split.
    + intros [|i] x t; cbn [nth_error].
      * intros [= <-] [= <-]. rewrite Nat.add_0_r. exists (dec_of_N (N.of_nat k)), (dec_of_N (av_type v)). split; [apply dec_numeral|]. split; [apply dec_numeral|reflexivity].
      * intros X T. replace (k + S i)%nat with (S k + i)%nat by lia. now apply H.
    + cbn [view_lines]. rewrite text_lines_cons, <- E. f_equal. f_equal. lia.
Qed.
Lemma view_listing_lines v : exists ls, view_file_lines v ls /\ view_listing v = text_of_lines ls.
Proof.
  unfold view_listing.
  destruct (text_lines_parts layout_lines (fun kv => println (lit " Views of layout " ++ fst kv ++ lit ":") ++ view_lines 0 (snd kv) ++ println []) (vw_layouts v))
    as (parts & F & E).
  { apply Forall_forall. intros [n l] _. cbn [fst snd]. destruct (view_lines_numbered l 0) as (ls & L & H & E).
    exists ((lit " Views of layout " ++ n ++ lit ":") :: ls ++ [[]]). split.
    - exists ls. split; [|reflexivity]. split; [exact L|exact H].
    - rewrite text_lines_cons, text_lines_app. change 0 with (N.of_nat 0) at 1. rewrite E. reflexivity. }
  exists (lit "Screens ==" :: concat parts). split; [exists parts; auto|]. rewrite text_lines_cons. f_equal. exact E.
Qed.
Lemma logic_listing_lines l : exists ls, logic_lines l ls /\ logic_listing l = text_of_lines ls.
Proof.
  unfold logic_listing.
  assert (X : exists parts, Forall2 screen_line l parts /\ flat_map logic_line l = text_of_lines parts).
  { induction l as [|kv l (parts & F & IH)]; [exists []; split; [constructor|reflexivity]|]. cbn [flat_map].
    unfold logic_line at 1. cbv zeta. eexists (_ :: parts). rewrite text_lines_cons, <- IH. split; [|reflexivity].
    constructor; [|exact F]. unfold screen_line. cbv zeta. do 6 eexists. do 3 (split; [apply members_count|]).
    split; [apply (members_count (Some (sl_block_containers (snd kv))))|]. split; [apply members_count|]. split; [apply members_count|]. reflexivity. }
  destruct X as (parts & F & E). exists (lit "Screens:" :: parts). split; [exists parts; auto|]. rewrite text_lines_cons. f_equal. exact E.
Qed.

(** ** Blocks *)
Lemma spaced_join ws : spaced ws (join 32 ws).
Proof.
  induction ws as [|w ws IH]; [constructor|]. destruct ws as [|w2 ws]; [constructor|].
  rewrite join_cons2. apply (spaced_cons w (w2 :: ws) (join 32 (w2 :: ws))); [discriminate|exact IH].
Qed.
Lemma spaced_fun ws t : spaced ws t -> t = join 32 ws.
Proof.
  induction 1 as [|w|w ws t N H ->]; [reflexivity|reflexivity|]. destruct ws as [|w2 ws]; [congruence|]. reflexivity.
Qed.
Definition label (b : ablock) : str := lit "Block #" ++ ab_op_code b ++ lit " opcode " ++ content_to_string (ab_content b).
Lemma label_iff b t : block_label b t <-> t = label b.
Proof.
  unfold block_label, label. assert (X : content_to_string (ab_content b) = join 32 (map word (ab_content b))).
  { rewrite content_to_string_join. change CH_SPACE with 32. f_equal. }
  rewrite X. split.
  - intros (c & S & ->). now rewrite (spaced_fun _ _ S).
  - intros ->. eexists. split; [apply spaced_join|reflexivity].
Qed.
Scheme stack_lines_mind := Minimality for stack_lines Sort Prop
  with nest_lines_mind := Minimality for nest_lines Sort Prop.
Combined Scheme lines_mind from stack_lines_mind, nest_lines_mind.
Lemma print_block_unfold n b : print_block n b =
  println (repeat 32 n ++ label b) ++
  match ab_sub_stack1 b with Some l => println (repeat 32 n ++ lit "substack1: ") ++ print_blocks (n + 2) l | None => [] end ++
  match ab_sub_stack2 b with Some l => println (repeat 32 n ++ lit "substack2: ") ++ print_blocks (n + 2) l | None => [] end.
Proof.
  assert (X : forall l, (fix print_blocks (l : list ablock) : str :=
    match l with [] => println [] | b :: r => print_block (n + 2) b ++ print_blocks r end) l = print_blocks (n + 2) l).
  { unfold print_blocks. induction l as [|x l IH]; [reflexivity|]. cbn [flat_map]. rewrite <- app_assoc, <- IH. reflexivity. }
  destruct b as [s1 s2 col op items ty]. cbn [print_block ab_sub_stack1 ab_sub_stack2]. f_equal. f_equal.
  - destruct s1; [|reflexivity]. f_equal. apply X.
  - destruct s2; [|reflexivity]. f_equal. apply X.
Qed.
Lemma print_blocks_cons n b r : print_blocks n (b :: r) = print_block n b ++ print_blocks n r.
Proof. unfold print_blocks. cbn [flat_map]. now rewrite app_assoc. Qed.
Lemma print_block_lines b : forall n, exists l1 l2,
  nest_lines n "substack1: " (ab_sub_stack1 b) l1 /\ nest_lines n "substack2: " (ab_sub_stack2 b) l2 /\
  print_block n b = text_of_lines ((repeat 32 n ++ label b) :: l1 ++ l2).
Proof.
  apply (ablock_induct (fun b => forall n, exists l1 l2,
    nest_lines n "substack1: " (ab_sub_stack1 b) l1 /\ nest_lines n "substack2: " (ab_sub_stack2 b) l2 /\
    print_block n b = text_of_lines ((repeat 32 n ++ label b) :: l1 ++ l2))).
  intros s1 s2 col op items ty H1 H2 _ n. rewrite print_block_unfold. cbn [ab_sub_stack1 ab_sub_stack2].
  set (P := fun b => forall n, exists l1 l2,
    nest_lines n "substack1: " (ab_sub_stack1 b) l1 /\ nest_lines n "substack2: " (ab_sub_stack2 b) l2 /\
    print_block n b = text_of_lines ((repeat 32 n ++ label b) :: l1 ++ l2)) in *.
  assert (ST : forall l, stack_all P l -> forall m, exists ls, stack_lines m l ls /\ print_blocks m l = text_of_lines ls).
  { induction l as [|x l IH]; intros A m.
    - exists [[]]. split; [constructor|reflexivity].
    - destruct A as [A B]. destruct (A m) as (l1 & l2 & N1 & N2 & E). destruct (IH B m) as (ls & S & E2).
      exists ((repeat 32 m ++ label x) :: l1 ++ l2 ++ ls). split.
      + apply sl_block; auto. now apply label_iff.
      + rewrite print_blocks_cons, E, E2, <- text_lines_app. cbn [app]. now rewrite <- app_assoc. }
  assert (SUB : forall name s, sub_all P s -> exists ls, nest_lines n name s ls /\
    match s with Some l => println (repeat 32 n ++ lit name) ++ print_blocks (n + 2) l | None => [] end = text_of_lines ls).
  { intros name [l|] A; [|exists []; split; [constructor|reflexivity]].
    destruct (ST l A (n + 2)%nat) as (ls & S & E). exists ((repeat 32 n ++ lit name) :: ls). split; [now constructor|]. now rewrite E, text_lines_cons. }
  destruct (SUB "substack1: "%string s1 H1) as (l1 & N1 & E1). destruct (SUB "substack2: "%string s2 H2) as (l2 & N2 & E2).
  exists l1, l2. split; [exact N1|]. split; [exact N2|]. now rewrite E1, E2, text_lines_cons, text_lines_app.
Qed.
Lemma print_blocks_lines n l : exists ls, stack_lines n l ls /\ print_blocks n l = text_of_lines ls.
Proof.
  induction l as [|x l (ls & S & E2)].
  - exists [[]]. split; [constructor|reflexivity].
  - destruct (print_block_lines x n) as (l1 & l2 & N1 & N2 & E).
    exists ((repeat 32 n ++ label x) :: l1 ++ l2 ++ ls). split.
    + apply sl_block; auto. now apply label_iff.
    + rewrite print_blocks_cons, E, E2, <- text_lines_app. cbn [app]. now rewrite <- app_assoc.
Qed.
Lemma demo_listing_lines dbg p : exists ls, project_lines dbg p ls /\ demo_listing dbg p = text_of_lines ls.
Proof.
  unfold demo_listing.
  destruct (text_lines_parts (screen_lines dbg) (fun s =>
    println (lit "  Screen " ++ sc_layout_name s ++ lit " or " ++ sc_java_name s ++ lit ":") ++
    println (lit "    Events:") ++ flat_map (event_listing dbg) (sc_events s)) (sp_screens p)) as (parts & F & E).
  { apply Forall_forall. intros s _. destruct (text_lines_parts (event_lines dbg) (event_listing dbg) (sc_events s)) as (parts & F & E).
    { apply Forall_forall. intros e _. destruct (print_blocks_lines 8 (ae_code e)) as (ls & S & E).
      eexists. split; [exists ls; split; [exact S|reflexivity]|]. rewrite text_lines_cons, <- E. reflexivity. }
    eexists. split; [exists parts; split; [exact F|reflexivity]|]. rewrite !text_lines_cons, <- E. reflexivity. }
  exists (lit "Screens:" :: concat parts). split; [exists parts; auto|]. rewrite text_lines_cons. f_equal. exact E.
Qed.

(** *** The tree can be told from its listing *)
Lemma pad_inj n a b : repeat 32 n ++ a = repeat 32 n ++ b -> a = b.
Proof. apply app_inv_head. Qed.
Lemma lines_det :
  (forall n l ls, stack_lines n l ls -> forall l' ls' k k', stack_lines n l' ls' -> ls ++ k = ls' ++ k' -> same_shape l l' /\ k = k') /\
  (forall n name s ls, nest_lines n name s ls -> forall s' ls' k k', nest_lines n name s' ls' -> ls ++ k = ls' ++ k' ->
     (hd [] k <> repeat 32 n ++ lit name) -> (hd [] k' <> repeat 32 n ++ lit name) -> same_nest s s' /\ k = k').
Proof.
  apply lines_mind.
  - intros n l' ls' k k' H E. inversion H as [|? b r t l1 l2 ls L N1 N2 S]; subst.
    + cbn [app] in E. injection E as <-. split; [constructor|reflexivity].
    + exfalso. cbn [app] in E. injection E as E _. apply label_iff in L as ->. destruct n; discriminate E.
  - intros n b r t l1 l2 ls L N1 IH1 N2 IH2 S IH l' ls' k k' H E. inversion H as [|? b' r' t' l1' l2' lr' L' N1' N2' S']; subst.
    + exfalso. cbn [app] in E. injection E as E _. apply label_iff in L as ->. destruct n; discriminate E.
    + cbn [app] in E. injection E as E1 E. apply pad_inj in E1. subst t'. rewrite <- !app_assoc in E.
      assert (HD : forall m l ls, stack_lines m l ls -> forall j name, name = lit "substack1: " \/ name = lit "substack2: " -> hd [] (ls ++ j) <> repeat 32 m ++ name).
      { clear. intros m l ls S j name K Q. destruct S as [m|m b r t l1 l2 ls L]; cbn [app hd] in Q.
        - destruct K as [-> | ->], m; discriminate Q.
        - apply label_iff in L as ->. apply pad_inj in Q. destruct K as [-> | ->]; discriminate Q. }
      assert (HN : forall m s ls2 l ls, nest_lines m "substack2: " s ls2 -> stack_lines m l ls -> forall j, hd [] (ls2 ++ ls ++ j) <> repeat 32 m ++ lit "substack1: ").
      { clear -HD. intros m s ls2 l ls N S j. inversion N; subst.
        - cbn [app]. eapply HD; eauto.
        - cbn [app hd]. intros Q. apply pad_inj in Q. discriminate Q. }
      apply (IH1 _ _ _ _ N1') in E as [SN1 E]; [|eapply HN; eauto|eapply HN; eauto].
      apply (IH2 _ _ _ _ N2') in E as [SN2 E]; [|eapply HD; eauto|eapply HD; eauto].
      apply (IH _ _ _ _ S') in E as [SS E]. split; [|exact E]. now apply (ss_cons b b' r r' t).
  - intros n name s' ls' k k' H E D D'. inversion H; subst.
    + cbn [app] in E. subst. split; [constructor|reflexivity].
    + exfalso. cbn [app] in E. subst k. now elim D.
  - intros n name l ls S IH s' ls' k k' H E D D'. inversion H as [|? ? l' ls2 S']; subst.
    + exfalso. cbn [app] in E. subst k'. now elim D'.
    + cbn [app] in E. injection E as E. apply (IH _ _ _ _ S') in E as [SS E]. split; [now constructor|exact E].
Qed.
Scheme one_line_mind := Minimality for one_line Sort Prop
  with one_line_nest_mind := Minimality for one_line_nest Sort Prop.
Combined Scheme one_line_mind2 from one_line_mind, one_line_nest_mind.
Lemma no_newline_pad n t : ~ In 10 t -> ~ In 10 (repeat 32 n ++ t).
Proof. intros H I. apply in_app_iff in I as [I|I]; [apply repeat_spec in I; discriminate|tauto]. Qed.
Lemma one_lines :
  (forall l, one_line l -> forall n ls, stack_lines n l ls -> Forall (fun x => ~ In 10 x) ls) /\
  (forall s, one_line_nest s -> forall n name ls, ~ In 10 (lit name) -> nest_lines n name s ls -> Forall (fun x => ~ In 10 x) ls).
Proof.
  apply one_line_mind2.
  - intros n ls H. inversion H; subst. constructor; [intros []|constructor].
  - intros b r L _ IH1 _ IH2 _ IH n ls H. inversion H as [|? ? ? t l1 l2 lr L' N1 N2 S]; subst.
    constructor; [now apply no_newline_pad, L|]. apply Forall_app. split; [|apply Forall_app; split].
    + eapply IH1; [|exact N1]. cbn. intuition discriminate.
    + eapply IH2; [|exact N2]. cbn. intuition discriminate.
    + eapply IH. exact S.
  - intros n name ls _ H. inversion H; subst. constructor.
  - intros l _ IH n name ls N H. inversion H; subst. constructor; [now apply no_newline_pad|]. eapply IH; eassumption.
Qed.
Lemma listing_shape n l l' : one_line l -> one_line l' -> print_blocks n l = print_blocks n l' -> same_shape l l'.
Proof.
  intros O O' E. destruct (print_blocks_lines n l) as (ls & S & P). destruct (print_blocks_lines n l') as (ls' & S' & P').
  assert (ls = ls') as <-. { apply text_lines_inj; [exact (proj1 one_lines l O n ls S)|exact (proj1 one_lines l' O' n ls' S')|congruence]. }
  exact (proj1 (proj1 lines_det n l ls S l' ls [] [] S' eq_refl)).
Qed.
