(** Proofs about strings that look like references to blocks. *)
From Verif Require Import Base Str Dec Flt SpecNumber M_Color M_Logic A_Block SpecBlock BlockContentProofs BlockProofs BlockReadProofs BlockWriteProofs BlockTripProofs BlockFailProofs SpecBack BackProofs
  SpecSpread SpreadProofs SpecSaid SaidProofs SpecMenu MenuSaidProofs P_BlockError SpecRefs.
From Coq Require Import Lia ZifyNat ZifyN ZifyBool.

(** ** Counting *)
Definition few (a u : list N) : Prop := forall n, (count_occ N.eq_dec a n <= count_occ N.eq_dec u n)%nat.
Lemma few_nil u : few [] u.
Proof. intros n. cbn. lia. Qed.
Lemma few_head n u : few [n] (n :: u).
Proof. intros k. cbn [count_occ]. destruct (N.eq_dec n k); lia. Qed.
Lemma few_app a b u v : few a u -> few b v -> few (a ++ b) (u ++ v).
Proof. intros A B n. rewrite !count_occ_app. specialize (A n). specialize (B n). lia. Qed.
Lemma few_left a u v : few a u -> few a (u ++ v).
Proof. intros A n. rewrite count_occ_app. specialize (A n). lia. Qed.
Lemma few_right a u v : few a v -> few a (u ++ v).
Proof. intros A n. rewrite count_occ_app. specialize (A n). lia. Qed.
Lemma few_nodup a u : few a u -> NoDup u -> NoDup a.
Proof. intros F Nu. apply (NoDup_count_occ N.eq_dec). intros n. rewrite (NoDup_count_occ N.eq_dec) in Nu. specialize (F n). specialize (Nu n). lia. Qed.
Lemma few_in a u n : few a u -> In n a -> In n u.
Proof. intros F Ia. apply (count_occ_In N.eq_dec). apply (count_occ_In N.eq_dec) in Ia. specialize (F n). lia. Qed.
Ltac few_solve := let n := fresh "n" in intros n; repeat match goal with H : few _ _ |- _ => specialize (H n) end; repeat (rewrite count_occ_app in * || (cbn [count_occ] in *)); repeat match goal with |- context [N.eq_dec ?a ?b] => destruct (N.eq_dec a b) end; lia.

(** ** Words *)
Lemma count_app a b : count_params (a ++ b) = (count_params a + count_params b)%nat.
Proof. unfold count_params. rewrite filter_app, app_length. reflexivity. Qed.
Lemma count_none ws : count_params ws = 0%nat -> Forall (fun w => ~ is_param w) ws.
Proof.
  induction ws as [|w ws IH]; [constructor|]. rewrite count_params_cons. intros H. apply Nat.eq_add_0 in H as [H H']. constructor; [|now apply IH]. intros [r ->].
  change (starts_with [CH_PERCENT] (37 :: r)) with true in H. discriminate.
Qed.
Definition item_words (i : spec_item ablock) : list str := split_on 32 (item_spec i).
Lemma param_words (a : argument ablock) : exists w ws, item_words (SParam a) = (37 :: match a with ArgString _ _ => 115 | ArgNumber _ _ => 100 | ArgBoolean _ _ => 98 | ArgMenu _ _ => 109 end :: w) :: ws.
Proof.
  assert (X : forall x t, x <> 32 -> exists w ws, split_on 32 (37 :: x :: t) = (37 :: x :: w) :: ws).
  { intros x t Hx. cbn [split_on]. apply N.eqb_neq in Hx. rewrite Hx. pose proof (split_on_nonnil 32 t) as Nn. destruct (split_on 32 t) as [|w ws]; [congruence|]. exists w, ws. reflexivity. }
  unfold item_words. destruct a as [n v|n v|n v|n v]; cbn [item_spec arg_spec].
  - apply (X 115). discriminate.
  - apply (X 100). discriminate.
  - apply (X 98). discriminate.
  - apply (X 109). discriminate.
Qed.
Lemma words_count items : forall c ps bs c', conv_args convert_block items c = Ok (ps, bs, c') -> (length ps <= count_params (flat_map item_words items))%nat.
Proof.
  induction items as [|[t|a] items IH]; cbn [conv_args flat_map]; intros c ps bs c' H.
  - injection H as <- <- <-. cbn. lia.
  - rewrite count_app. apply IH in H. lia.
  - apply bind_ok in H as ([[p x] c1] & _ & H). apply bind_ok in H as ([[ps' y] c2] & H & [= <- _ _]). apply IH in H. rewrite count_app.
    destruct (param_words a) as (w & ws & ->). rewrite count_params_cons. cbn [length].
    match goal with |- context [starts_with [CH_PERCENT] (37 :: ?x)] => change (starts_with [CH_PERCENT] (37 :: x)) with true end. cbv iota. lia.
Qed.
Lemma gives_texts ws : Forall (fun w => ~ is_param w) ws -> forall ts args (hs : list (spec_item ablock)), gives (ws ++ ts) args hs -> exists h, hs = map SText ws ++ h /\ gives ts args h.
Proof.
  induction 1 as [|w ws Hw F IH]; cbn [app map]; intros ts args hs Gv; [eauto|].
  inversion Gv as [|t' ts' args' is P Gv'|? ? ? ? ? ? ? P|? ? ? ? ? ? ? P|? ? ? ? ? ? ? P|? ? ? ? ? ? P]; subst; try (destruct Hw; destruct P as (r & -> & _); now eexists).
  destruct (IH _ _ _ Gv') as (h & -> & Gh). eauto.
Qed.
Lemma texts_read (G : N -> block -> Prop) ws : forall h its u, reads_items G (map SText ws ++ h) its u -> exists its', reads_items G h its' u.
Proof. induction ws as [|w ws IH]; cbn [map app]; intros h its u R; [eauto|]. inversion R; subst. eauto. Qed.
Lemma at_read {T} (f : str -> T -> Prop) c (v : arg_value ablock T) : c < 2 ^ 31 -> reads_as f (lit "@" ++ dec_of_N c) v -> v = APlaceholder c.
Proof.
  intros L. destruct v as [t|b|k|]; cbn [reads_as]; try tauto.
  - intros [H _]. now destruct (H (dec_of_N c)).
  - intros (r & E & P). injection E as <-. rewrite parse_u32_dec in P by (unfold U32MAX; lia). now injection P as <-.
Qed.

(** ** Blocks *)
Section Refs.
  Context (G : N -> block -> Prop).
  Lemma block_head id b u : reads_block G id b u -> few [id] u.
  Proof. intros R. inversion R; subst. apply few_head. Qed.
  (** a block below which there is nothing uses itself and what its strings refer to *)
  Definition ref_few (y : ablock) : Prop := forall k pb x u, childless y -> convert_block y k true = Ok ([pb], k + 1) -> G (k + 1) pb -> k + 1 < 2 ^ 31 ->
    reads_block G (k + 1) x u -> few ((k + 1) :: block_refs y) u.
  Lemma tail_few y c bs c' x u : ref_few y -> tail_is y bs c' -> emb G c bs -> c' = c + N.of_nat (length bs) -> c' < 2 ^ 31 -> reads_block G c' x u -> few (c' :: block_refs y) u.
  Proof.
    intros R (pre & pb & -> & C & P & H) E Ec L Rd. apply emb_last with (c' := c') in E; auto.
    specialize (R (c' - 1) pb x u C). replace (c' - 1 + 1) with c' in R by lia. auto.
  Qed.
  (** what an argument uses *)
  Definition arg_tokens (c : N) (a : argument ablock) : list N := item_numbers c (SParam a) ++ item_refs (SParam a) ++ flat_map block_refs (item_read (SParam a)).
  Lemma arg_sized a c p x c1 : conv_arg convert_block a c = Ok (p, x, c1) -> c1 = c + N.of_nat (length x) /\ length x = item_size block_size (SParam a).
  Proof.
    intros H. split; [now apply conv_arg_le in H as [-> _]|].
    assert (V : forall T (g : T -> str) v, conv_value convert_block g v c = Ok (p, x, c1) -> length x = value_size block_size v).
    { intros T g [t|b|k|]; cbn [conv_value value_size]; intros X; try discriminate; try (now injection X as <- <- <-). apply bind_ok in X as ([bs0 c0] & X & [= <- <- <-]). eapply all_sized; eauto. }
    destruct a as [n v|n v|n v|n v]; cbn [conv_arg item_size] in *; try (eapply V; eauto; fail). destruct v as [t|b|k|]; [now injection H as <- <- <-|..]; eapply V; eauto.
  Qed.
  (** what is read for an argument with the text [p] *)
  Definition hole_of (a : argument ablock) (p : str) (h : argument ablock) : Prop :=
    match a, h with
    | ArgString _ _, ArgString _ v => reads_as eq p v
    | ArgNumber _ _, ArgNumber _ v => reads_as number_text p v
    | ArgBoolean _ _, ArgBoolean _ v => reads_as boolean_text p v
    | ArgMenu _ _, ArgMenu _ _ => True
    | _, _ => False
    end.
  Lemma arg_few a c p x c1 h b u : Forall ref_few (item_read (SParam a)) -> conv_arg convert_block a c = Ok (p, x, c1) -> emb G c x -> c1 < 2 ^ 31 ->
    hole_of a p h -> reads_arg G h b u -> few (arg_tokens c a) u.
  Proof.
    intros R Ha E L M Rd. destruct (arg_sized _ _ _ _ _ Ha) as [Lc Ls]. pose proof (arg_tail _ _ _ _ _ (item_all_intro _ (SParam a) all_tails) Ha) as T.
    assert (Tk : forall y z v, tail_is (last_block y) x c1 -> length x = block_size y -> ref_few (last_block y) -> reads_block G c1 z v -> few ((c + N.of_nat (block_size y)) :: block_refs (last_block y)) v).
    { intros y z v Ty Ly Ry Rz. rewrite <- Ly, <- Lc. eapply tail_few; eauto. }
    unfold hole_of in M. unfold arg_tokens. destruct a as [n v|n v|n v|n v]; destruct h as [m w|m w|m w|m w]; try tauto; destruct v as [t|y|i|]; cbn [conv_arg conv_value] in Ha; try discriminate;
      cbn [item_numbers item_refs item_read flat_map app item_last value_last item_size value_size] in *; rewrite ?app_nil_r; try apply few_nil.
    - injection Ha as <- <- <-. destruct t as [|ch r]; [apply few_nil|]. destruct (N.eqb_spec ch 64) as [->|]; [|apply few_nil]. destruct (parse_u32 r) as [k|] eqn:Pk; [|apply few_nil]. cbn [listed].
      destruct w as [z|z|z|]; cbn [reads_as] in M; try tauto.
      + destruct M as [M _]. now destruct (M r).
      + destruct M as (r' & X & M). injection X as <-. rewrite Pk in M. injection M as <-. inversion Rd; subst. eapply block_head; eauto.
    - rewrite (proj2 T) in M. apply at_read in M; [|exact L]. subst w. clear Lc. inversion Rd; subst. eapply Tk; [exact (proj1 T)|exact Ls|exact (Forall_inv R)|eassumption].
    - rewrite (proj2 T) in M. apply at_read in M; [|exact L]. subst w. clear Lc. inversion Rd; subst. eapply Tk; [exact (proj1 T)|exact Ls|exact (Forall_inv R)|eassumption].
    - injection Ha as <- <- <-. apply at_read in M; [|exact L]. subst w. clear Lc. inversion Rd; subst; eapply block_head; eauto.
    - rewrite (proj2 T) in M. apply at_read in M; [|exact L]. subst w. clear Lc. inversion Rd; subst; (eapply Tk; [exact (proj1 T)|exact Ls|exact (Forall_inv R)|eassumption]).
  Qed.
  Definition tokens (c : N) (items : list (spec_item ablock)) : list N := items_numbers c items ++ flat_map item_refs items ++ flat_map block_refs (flat_map item_read items).
  Lemma items_few items : Forall ref_few (flat_map item_read items) -> forall c ps bs c' holes its u, conv_args convert_block items c = Ok (ps, bs, c') -> emb G c bs -> c' < 2 ^ 31 ->
    gives (flat_map item_words items) ps holes -> reads_items G holes its u -> few (tokens c items) u.
  Proof.
    induction items as [|[t|a] items IH]; cbn [flat_map conv_args]; intros R c ps bs c' holes its u H E L Gv Rd; [apply few_nil|..].
    - assert (C : count_params (item_words (SText t)) = 0%nat) by (pose proof (gives_count _ _ _ Gv) as X; pose proof (words_count _ _ _ _ _ H) as Y; rewrite count_app in X; lia).
      apply count_none in C. destruct (gives_texts _ C _ _ _ Gv) as (h & -> & Gh). apply texts_read in Rd as (its' & Rd).
      specialize (IH R _ _ _ _ _ _ _ H E L Gh Rd). unfold tokens in *. cbn [items_numbers item_numbers item_size flat_map item_refs item_read app]. rewrite N.add_0_r. exact IH.
    - rewrite Forall_app in R. destruct R as [Ra R]. apply bind_ok in H as ([[p x] c1] & Ha & H). apply bind_ok in H as ([[ps' y] c2] & H & [= <- <- <-]).
      pose proof (conv_args_le _ _ _ _ _ H) as [L2 _]. destruct (arg_sized _ _ _ _ _ Ha) as [L1 Ls].
      apply (emb_app G c x c1 y) in E as [Ex Ey]; [|lia]. assert (Lx : c1 < 2 ^ 31) by lia.
      pose proof (gives_count _ _ _ Gv) as X. pose proof (words_count _ _ _ _ _ H) as Y. destruct (param_words a) as (w & ws & Ew). rewrite Ew in Gv, X. cbn [app] in Gv, X. rewrite count_params_cons in X.
      match type of X with context [starts_with [CH_PERCENT] (37 :: ?q)] => change (starts_with [CH_PERCENT] (37 :: q)) with true in X end. cbv iota in X. cbn [length] in X. rewrite count_app in X.
      assert (C : count_params ws = 0%nat) by lia. apply count_none in C. clear X Y Ew.
      assert (K : exists h hs, holes = SParam h :: hs /\ gives (ws ++ flat_map item_words items) ps' hs /\
        hole_of a p h).
      { inversion Gv as [|t' ts' args' is P Gv'|? ? ? ? ? ? ? P|? ? ? ? ? ? ? P|? ? ? ? ? ? ? P|? ? ? ? ? ? P]; subst; try (destruct P; now eexists);
          destruct a; destruct P as (r & P & _); try discriminate; do 2 eexists; (split; [reflexivity|]); (split; [eassumption|]); cbn [hole_of]; auto. }
      destruct K as (h & hs & -> & Gh & M). destruct (gives_texts _ C _ _ _ Gh) as (h' & -> & Gh'). inversion Rd as [| |? b v ? i u' Rv Rd']; subst its u. apply texts_read in Rd' as (its' & Rd').
      specialize (IH R _ _ _ _ _ _ _ H Ey L Gh' Rd'). pose proof (arg_few a c p x c1 h b v Ra Ha Ex Lx M Rv) as A. unfold tokens, arg_tokens in *. cbn [items_numbers flat_map].
      rewrite <- Ls, <- L1. rewrite flat_map_app. few_solve.
  Qed.
  Lemma sub_few s c z bs c' s' u : Forall ref_few (sub_read s) -> sub_ptr s c z bs c' -> emb G c bs -> c' < 2 ^ 31 -> reads_sub G z s' u ->
    few (sub_numbers c s ++ flat_map block_refs (sub_read s)) u.
  Proof.
    intros R H E L Rd. pose proof (sub_ptr_le _ _ _ _ _ H) as [Lc _]. pose proof H as H0. apply sub_tail in H0; [|apply sub_all_intro, all_tails]. unfold sub_read in *.
    destruct s as [[|b l]|]; cbn [sub_ptr sub_numbers sub_last stack_last listed flat_map app] in *; try apply few_nil. destruct H as (-> & _ & H). apply stack_sized in H.
    destruct (or_else (stack_last last_block l) (Some (last_block b))) as [y|] eqn:Ey; [|destruct (stack_last last_block l); discriminate]. destruct H0 as [T _]. cbn [listed flat_map] in *. rewrite app_nil_r, <- H, <- Lc.
    inversion Rd as [|z' l' u' Hz Rs]; subst u s'; [lia|]. subst z'. rewrite N2Z.id in Rs. pose proof (Forall_inv R) as R1.
    inversion Rs as [id pb' x v Eg Hn Rb|id pb' x v l2 w Eg Hn Rb Rs']; subst; [|apply few_left]; eapply tail_few; eauto.
  Qed.
  Lemma block_few b c last bs c' x u : Forall ref_few (refs b) -> convert_block b c last = Ok (bs, c') -> emb G c bs -> c' < 2 ^ 31 ->
    (forall id x y, G id x -> G id y -> x = y) -> reads_block G (c + 1) x u -> few (block_numbers c b ++ flat_map block_refs (read_again b)) u.
  Proof.
    intros R H E L Gf Rd. apply convert_block_inv in H as (ps & ba & c1 & z1 & b1 & c2 & z2 & b2 & Ha & H1 & H2 & ->). unfold refs in R. rewrite !Forall_app in R. destruct R as (Q1 & Q2 & Q3).
    pose proof (conv_args_le _ _ _ _ _ Ha) as [La _]. pose proof (sub_ptr_le _ _ _ _ _ H1) as [L1 _]. pose proof (sub_ptr_le _ _ _ _ _ H2) as [L2 _].
    apply emb_head in E as [E0 E]. apply (emb_app _ _ _ c1) in E as [Ea E]; [|lia]. apply (emb_app _ _ _ c2) in E as [E1 E2]; [|lia].
    inversion Rd as [id pb ws holes s1 u1 s2 u2 items u3 ty Eg R1 R2 Wd Gv R3 T]. subst id u x. rewrite (Gf _ _ _ Eg E0) in *. cbn [raw bl_sub_stack1 bl_sub_stack2 bl_parameters bl_spec] in *.
    assert (L1' : c1 < 2 ^ 31) by lia. assert (L2' : c2 < 2 ^ 31) by lia.
    pose proof (sub_few _ _ _ _ _ _ _ Q1 H1 E1 L2' R1) as F1. pose proof (sub_few _ _ _ _ _ _ _ Q2 H2 E2 L R2) as F2.
    assert (F3 : few (tokens (c + 1) (ab_content b)) u3).
    { destruct (ab_content b) as [|i0 l0] eqn:Ec; [apply few_nil|]. rewrite <- Ec in *. apply words_split in Wd. rewrite content_to_string_join, map_item_spec in Wd. change CH_SPACE with 32 in Wd.
      rewrite split_items in Wd by congruence. subst ws. eapply items_few; eauto. }
    assert (S1 : c1 = c + 1 + N.of_nat (items_size block_size (ab_content b))).
    { rewrite La. do 2 f_equal. clear - Ha. revert Ha. generalize (c + 1). revert ps ba c1. induction (ab_content b) as [|[t|a] l IH]; cbn [conv_args items_size]; intros ps ba c1 k H.
      - now injection H as <- <- <-.
      - apply IH in H. exact H.
      - apply bind_ok in H as ([[p x] c3] & Ha & H). apply bind_ok in H as ([[ps' y] c4] & H & [= <- <- <-]). apply IH in H. apply arg_sized in Ha as [_ Ha]. rewrite app_length. lia. }
    assert (S2 : c2 = c1 + N.of_nat (sub_size block_size (ab_sub_stack1 b))).
    { rewrite L1. do 2 f_equal. destruct (ab_sub_stack1 b) as [[|b0 l0]|]; cbn [sub_ptr sub_size stack_size] in *; try (destruct H1 as (_ & -> & _); reflexivity). destruct H1 as (_ & _ & H1). apply stack_sized in H1. exact H1. }
    unfold block_numbers, read_again. cbv zeta. rewrite <- S1, <- S2. unfold tokens, sub_read in *. cbn [flat_map]. rewrite !flat_map_app. unfold block_refs at 1. few_solve.
  Qed.
  Lemma childless_few (Gf : forall id x y, G id x -> G id y -> x = y) y : ref_few y.
  Proof.
    intros k pb x u C H E L Rd. destruct (childless_parts y C) as (C1 & C2 & C3). destruct (childless_back y C) as [_ Er].
    assert (X : few (block_numbers k y ++ flat_map block_refs (read_again y)) u).
    { apply (block_few y k true [pb] (k + 1) x u); auto.
      - unfold refs, sub_read. rewrite C1, C2. rewrite (proj1 (items_none _ C3)). constructor.
      - intros [|[|i]] q X; try discriminate. injection X as <-. now rewrite N.add_0_r. }
    rewrite Er in X. unfold block_numbers in X. cbv zeta in X. cbn [flat_map] in X. few_solve.
  Qed.
  Lemma stack_few (Gf : forall id x y, G id x -> G id y -> x = y) l : l <> [] -> forall c bs c' l' u, conv_stack convert_block l c = Ok (bs, c') -> emb G c bs -> c' < 2 ^ 31 ->
    reads_stack G (c + 1) l' u -> few (stack_numbers c l ++ code_refs l) u.
  Proof.
    induction l as [|b l IH]; [congruence|]. intros _ c bs c' l' u H E L Rd. cbn [conv_stack] in H.
    apply bind_ok in H as ([x c1] & H1 & H). apply bind_ok in H as ([y c2] & H2 & [= <- <-]).
    pose proof (all_numbered _ _ _ _ _ H1) as [[L1 _] _]. pose proof (conv_stack_le _ _ _ _ H2) as [L2 _]. apply (emb_app _ _ _ c1) in E as [Ex Ey]; [|lia]. pose proof (all_sized _ _ _ _ _ H1) as Sz.
    assert (A : forall z v, reads_block G (c + 1) z v -> few (block_numbers c b ++ flat_map block_refs (read_again b)) v).
    { intros z v Rz. eapply block_few; eauto; [|lia]. apply Forall_forall. intros w _. now apply childless_few. }
    assert (Nx : exists pb, G (c + 1) pb /\ bl_next_block pb = match l with [] => (-1)%Z | _ => Z.of_N (c1 + 1) end).
    { apply convert_block_inv in H1 as (ps & ba & ca & z1 & b1 & cb & z2 & b2 & _ & _ & _ & ->). apply emb_head in Ex as [Ex _].
      eexists. split; [exact Ex|]. cbn [raw bl_next_block]. destruct l as [|b' l]; [reflexivity|]. cbn [length Nat.eqb].
      apply stack_sized in H2. unfold blocks_size in H2. cbn [stack_size] in H2. destruct b'. cbn [block_size] in H2. unfold i32_of_u32. destruct (N.ltb_spec (c1 + 1) 2147483648); lia. }
    destruct Nx as (pb & Gp & Np). unfold code_refs in *. cbn [stack_numbers flat_map]. rewrite <- Sz, <- L1.
    inversion Rd as [id pb' z v Eg Hn Rb|id pb' z v l2 w Eg Hn Rb Rs]; subst id u l'; rewrite (Gf _ _ _ Eg Gp), Np in *; specialize (A _ _ Rb); (destruct l as [|b' l]; [|]); try lia.
    - cbn [stack_numbers flat_map]. few_solve.
    - rewrite N2Z.id in Rs. specialize (IH ltac:(discriminate) _ _ _ _ _ H2 Ey L Rs). few_solve.
  Qed.
End Refs.

(** ** Containers *)
Theorem refs_distinct l c l' : blocks_into l = Ok c -> 9 + N.of_nat (length c) < 2 ^ 31 -> blocks_try_from c = Ok l' ->
  NoDup (code_numbers l ++ code_refs l) /\ Forall (fun n => 9 < n <= 9 + N.of_nat (blocks_size l)) (code_numbers l ++ code_refs l).
Proof.
  intros H L X. pose proof (into_sized _ _ H) as Sz. pose proof (into_stack _ _ H) as Hs. destruct (into_numbered _ _ H) as [Hn He]. pose proof (graph_emb _ _ Hn L) as E.
  apply try_from_iff in X as (u & [_ [(-> & _)|(id & S & R)]] & Nu); [rewrite (proj1 He eq_refl); split; constructor|].
  assert (Hc : c <> []) by (intros ->; destruct S as ([|? ?] & ? & ? & X & _); discriminate). apply (start_numbered _ _ Hn L Hc) in S. subst id.
  assert (Hl : l <> []) by (intros X; now apply He in X).
  pose proof (stack_few (graph c) (graph_fun c) l Hl 9 _ _ _ _ Hs E L R) as F. split; [eapply few_nodup; eauto|].
  apply Forall_forall. intros n In1. apply (few_in _ _ _ F) in In1. destruct (reads_uses (graph c)) as (_ & _ & U & _). apply (U _ _ _ R) in In1 as (pb & Gn).
  apply (graph_numbered _ _ Hn L) in Gn as (i & Ni & ->). assert (i < length c)%nat by (apply nth_error_Some; congruence). lia.
Qed.
Lemma items_range items : forall k, Forall (fun n => k < n <= k + N.of_nat (items_size block_size items)) (items_numbers k items).
Proof.
  assert (P : forall b, (0 < block_size b)%nat) by (intros []; cbn [block_size]; lia).
  induction items as [|i items IH]; intros k; cbn [items_numbers items_size]; [constructor|]. apply Forall_app. split.
  - destruct i as [t|[n v|n v|n v|n v]]; try constructor; destruct v as [x|b|j|]; cbn [item_numbers item_size value_size]; try constructor; try constructor; try lia; specialize (P b); lia.
  - eapply Forall_impl; [|apply IH]. cbv beta. intros n. lia.
Qed.
Lemma sub_range s k : Forall (fun n => k < n <= k + N.of_nat (sub_size block_size s)) (sub_numbers k s).
Proof. destruct s as [[|b l]|]; cbn [sub_numbers sub_size]; constructor; [|constructor]. unfold blocks_size. cbn [stack_size]. destruct b. cbn [block_size]. lia. Qed.
Lemma block_range b k : Forall (fun n => k < n <= k + N.of_nat (block_size b)) (block_numbers k b).
Proof.
  unfold block_numbers. cbv zeta. destruct b as [s1 s2 col op items ty]. cbn [ab_content ab_sub_stack1 ab_sub_stack2 block_size]. constructor; [lia|]. rewrite !Forall_app. split; [|split].
  - eapply Forall_impl; [|apply items_range]. cbv beta. intros n. lia.
  - eapply Forall_impl; [|apply sub_range]. cbv beta. intros n. lia.
  - eapply Forall_impl; [|apply sub_range]. cbv beta. intros n. lia.
Qed.
Lemma stack_range l : forall k, Forall (fun n => k < n <= k + N.of_nat (blocks_size l)) (stack_numbers k l).
Proof.
  unfold blocks_size. induction l as [|b l IH]; intros k; cbn [stack_numbers stack_size]; [constructor|]. apply Forall_app. split.
  - eapply Forall_impl; [|apply block_range]. cbv beta. intros n. lia.
  - eapply Forall_impl; [|apply IH]. cbv beta. intros n. lia.
Qed.
Theorem read_not_lost l : all_read l -> ~ refs_lost l.
Proof.
  intros A (Ne & Nd & F).
  assert (Le : (length (code_numbers l ++ code_refs l) <= length (map (fun i => (10 + N.of_nat i)%N) (seq 0 (blocks_size l))))%nat).
  { apply NoDup_incl_length; [exact Nd|]. intros n In1. assert (R : 9 < n <= 9 + N.of_nat (blocks_size l)).
    { apply in_app_iff in In1 as [In1|In1]; [pose proof (stack_range l 9) as X; rewrite Forall_forall in X; now apply X|rewrite Forall_forall in F; now apply F]. }
    apply in_map_iff. exists (N.to_nat (n - 10)). split; [lia|]. apply in_seq. lia. }
  rewrite app_length, map_length, seq_length, A in Le. destruct (code_refs l); [congruence|]. cbn [length] in Le. lia.
Qed.
Lemma open_item_refs i : item_open i <-> item_refs i = [] /\ match i with SParam (ArgNumber _ (AValue x)) => canonical F64 x = true | _ => True end.
Proof.
  destruct i as [t|[n v|n v|n v|n v]]; cbn [item_open item_refs]; try tauto; destruct v as [s|b|k|]; try tauto. destruct s as [|ch r]; [split; [auto|discriminate]|].
  destruct (N.eqb_spec ch 64) as [->|Hn].
  - destruct (parse_u32 r) as [k|] eqn:E; cbn [listed].
    + split; [|intros [X _]; discriminate]. intros X. exfalso. apply (X r k eq_refl). now apply C81_id.
    + split; [auto|]. intros _ r' n' [= <-] X. apply C81_id in X. congruence.
  - split; [auto|]. intros _ r' n' [= -> _]. congruence.
Qed.
Lemma flat_map_none {A B} (f : A -> list B) l : flat_map f l = [] <-> Forall (fun a => f a = []) l.
Proof. induction l as [|a l IH]; cbn [flat_map]; [split; constructor|]. rewrite Forall_cons_iff, <- IH. split; [apply app_eq_nil|now intros [-> ->]]. Qed.
Lemma open_block_refs b : block_open b <-> block_refs b = [] /\ block_canonical b.
Proof.
  unfold block_open, block_refs, block_canonical. rewrite flat_map_none. induction (ab_content b) as [|i l IH]; [repeat split; constructor|]. rewrite !Forall_cons_iff, IH, open_item_refs. tauto.
Qed.
Lemma open_code l : Forall (fun b => Forall block_open (read_again b)) l <-> code_refs l = [] /\ Forall (fun b => Forall block_canonical (read_again b)) l.
Proof.
  unfold code_refs. rewrite flat_map_none. induction l as [|b l IH]; [repeat split; constructor|]. rewrite !Forall_cons_iff, IH, flat_map_none.
  enough (X : Forall block_open (read_again b) <-> Forall (fun y => block_refs y = []) (read_again b) /\ Forall block_canonical (read_again b)) by tauto.
  clear IH. induction (read_again b) as [|y m IH]; [repeat split; constructor|]. rewrite !Forall_cons_iff, IH, open_block_refs. tauto.
Qed.
Lemma said_refs l : Forall (fun b => Forall block_said (read_again b)) l -> code_refs l = [].
Proof.
  intros S. unfold code_refs. apply flat_map_none. eapply Forall_impl; [|exact S]. intros b Sb. apply flat_map_none. eapply Forall_impl; [|exact Sb]. intros y [_ Sy].
  unfold block_refs. apply flat_map_none. eapply Forall_impl; [|exact Sy]. intros [t|[n v|n v|n v|n v]]; try reflexivity. destruct v as [[|ch r]|x|k|]; try reflexivity.
  cbn [item_said item_refs]. intros [_ H]. destruct (N.eqb_spec ch 64) as [->|]; [|reflexivity]. now destruct (H r).
Qed.
Theorem refs_iff l c : blocks_into l = Ok c -> 9 + N.of_nat (length c) < 2 ^ 31 -> Forall (fun b => Forall block_canonical (read_again b)) l -> ~ refs_lost l ->
  forall l', blocks_try_from c = Ok l' <-> Forall (fun b => Forall block_said (read_again b)) l /\ l' = map block_back (stack_menus 9 (map (fun b => tidy (spread b)) l)).
Proof.
  intros H L K NL l'. split.
  - intros X. apply (open_iff l c H L); [|exact X]. apply open_code. split; [|exact K]. destruct (refs_distinct l c l' H L X) as [Nd F]. destruct (code_refs l) eqn:E; [reflexivity|]. destruct NL. unfold refs_lost. rewrite E.
    split; [discriminate|]. split; [exact Nd|]. now apply Forall_app in F.
  - intros [S E]. apply (open_iff l c H L); [|auto]. apply open_code. split; [now apply said_refs|exact K].
Qed.
