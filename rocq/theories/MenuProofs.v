(** What becomes of trees with blocks in the place of menus ([SpecMenu.v]). *)
From Verif Require Import Base Spec Str Dec Flt FltProofs FltCanon SpecNumber NumberStdProofs M_Color ColorProofs M_Logic A_Block SpecBlock LogicMapProofs BlockContentProofs BlockProofs BlockReadProofs
  BlockWriteProofs BlockTripProofs BlockFailProofs SpecBack BackProofs SpecMenu.
From Coq Require Import ZifyNat ZifyN ZifyBool.

(** ** Items *)
Lemma fair_cases (a : argument ablock) : item_fair (SParam a) -> (item_plain (SParam a) /\ forall k, menu_out k (SParam a) = SParam a) \/ exists n b, a = ArgMenu n (ABlock b) /\ name_ok (Some n).
Proof. destruct a as [n v|n v|n v|n v]; destruct v as [t|b|k|]; intros H; try (left; split; [exact H|reflexivity]). right. now exists n, b. Qed.
Lemma fair_named l : Forall item_fair l -> Forall item_named l.
Proof. apply Forall_impl. intros [t|[n v|n v|n v|n v]]; try (cbn; tauto); destruct v; cbn; tauto. Qed.
Lemma fair_shown items : Forall item_fair items -> Forall item_fair (shown items).
Proof. destruct items; auto. intros _. constructor; [|constructor]. split; [intros []|]. intros [r X]. discriminate. Qed.
Lemma fair_words b id next ps z1 z2 : block_fair b -> forall ws, words (bl_spec (raw b id next ps z1 z2)) ws <-> ws = map item_spec (shown (ab_content b)).
Proof.
  intros F ws. destruct (ab_content b) as [|i l] eqn:E.
  - cbn [raw bl_spec]. rewrite E, words_split. reflexivity.
  - rewrite raw_words; [rewrite E; reflexivity|congruence|]. unfold block_fair in F. now apply fair_named.
Qed.
Lemma fair_childless y : childless y -> block_fair y -> block_plain y.
Proof.
  intros C F. apply childless_parts in C as (_ & _ & C). unfold block_fair, block_plain in *. revert C. induction F as [|i l Hi F IH]; cbn [items_last]; [constructor|].
  rewrite or_else_none. intros [C Ci]. constructor; auto. destruct i as [t|a]; [exact Hi|]. destruct (fair_cases a Hi) as [[P _]|(n & b & -> & _)]; [exact P|]. discriminate.
Qed.
Lemma arg_sized a c p x c1 : conv_arg convert_block a c = Ok (p, x, c1) -> length x = item_size block_size (SParam a).
Proof.
  destruct a as [n v|n v|n v|n v]; destruct v as [t|b|k|]; cbn [conv_arg conv_value item_size value_size]; intros H; try discriminate;
    try (apply bind_ok in H as ([bs0 c0] & H & [= <- <- <-]); eapply all_sized; eauto; fail); injection H as <- <- <-; reflexivity.
Qed.
Lemma menus_shown k items : menus_out k (shown items) = shown (menus_out k items).
Proof. destruct items; reflexivity. Qed.
Lemma menu_spec k i : item_spec (menu_out k i) = item_spec i.
Proof. destruct i as [t|[n v|n v|n v|n v]]; auto. now destruct v. Qed.
Lemma menu_item_read k i : item_read (menu_out k i) = item_read i.
Proof. destruct i as [t|[n v|n v|n v|n v]]; auto. now destruct v. Qed.
Lemma menus_read k items : flat_map item_read (menus_out k items) = flat_map item_read items.
Proof. revert k. induction items as [|i l IH]; intros k; [reflexivity|]. cbn [menus_out flat_map]. now rewrite IH, menu_item_read. Qed.
Lemma menu_given k i : item_given (menu_out k i) <-> item_given i.
Proof. destruct i as [t|[n v|n v|n v|n v]]; try reflexivity. now destruct v. Qed.
Lemma menus_given k items : Forall item_given (menus_out k items) <-> Forall item_given items.
Proof. revert k. induction items as [|i l IH]; intros k; [reflexivity|]. cbn [menus_out]. now rewrite !Forall_cons_iff, IH, menu_given. Qed.
Lemma menu_plain k i : item_fair i -> item_plain (menu_out k i).
Proof. destruct i as [t|[n v|n v|n v|n v]]; auto. destruct v; auto. cbn. auto. Qed.
Lemma menus_plain k items : Forall item_fair items -> Forall item_plain (menus_out k items).
Proof. intros F. revert k. induction F; intros k; constructor; auto. now apply menu_plain. Qed.

Section Menus.
  Context (G : N -> block -> Prop) (Gf : forall id x y, G id x -> G id y -> x = y) (gv : ablock -> Prop).
  Lemma fair_ref y : block_fair y -> ref_ok block_given G y.
  Proof. intros F k pb C. apply (trips_ref G Gf block_given y); auto. apply plain_trips; auto. now apply fair_childless. Qed.
  Lemma items_menu_reads items : Forall item_fair items -> Forall (ref_ok gv G) (flat_map item_read items) -> forall c ps bs c',
    conv_args convert_block items c = Ok (ps, bs, c') -> emb G c bs -> c' < 2 ^ 31 ->
    (Forall item_given items -> Forall gv (flat_map item_read items) ->
     exists holes u, gives (map item_spec items) ps holes /\ reads_items G holes (map item_back (menus_out c items)) u /\ within c u c') /\
    (forall holes items' u, gives (map item_spec items) ps holes -> reads_items G holes items' u ->
     items' = map item_back (menus_out c items) /\ Forall item_given items /\ Forall gv (flat_map item_read items)).
  Proof.
    intros F. induction F as [|[t|a] items Hi F IH]; cbn [conv_args map item_spec flat_map menus_out]; intros R c ps bs c' H E L.
    - injection H as <- <- <-. split.
      + intros _ _. exists [], []. split; [constructor|split; [constructor|apply within_nil]].
      + intros holes items' u Gv Rd. inversion Gv; subst. inversion Rd; subst. auto.
    - cbn [item_size]. rewrite N.add_0_r. destruct (IH R _ _ _ _ H E L) as [A B]. cbn [item_read app item_back item_alone menu_out]. split.
      + intros K Kb. inversion K; subst. destruct A as (holes & u & Gv & Rd & W); auto. exists (SText t :: holes), u. split; [constructor; auto; apply Hi|]. split; [now constructor|auto].
      + intros holes items' u Gv Rd. inversion Gv as [|t' ts args is P Gv'|? ? ? ? ? ? ? P|? ? ? ? ? ? ? P|? ? ? ? ? ? ? P|? ? ? ? ? ? P]; subst.
        2-5: destruct P as (r & -> & _); destruct Hi as [_ Hi]; destruct Hi; now eexists.
        inversion Rd; subst. destruct (B _ _ _ Gv' H4) as (-> & ? & ?). repeat split; auto. constructor; auto. exact I.
    - rewrite Forall_app in R. destruct R as [Ra R]. apply bind_ok in H as ([[p x] c1] & Ha & H). apply bind_ok in H as ([[ps' y] c2] & H & [= <- <- <-]).
      pose proof (conv_args_le _ _ _ _ _ H) as [L2 _]. pose proof (conv_arg_le _ _ _ _ _ Ha) as [L1 _].
      apply (emb_app G c x c1 y) in E as [Ex Ey]; [|lia]. destruct (IH R _ _ _ _ H Ey L) as [A B]. assert (Lx : c1 < 2 ^ 31) by lia.
      pose proof (arg_sized _ _ _ _ _ Ha) as Sz. replace (c + N.of_nat (item_size block_size (SParam a))) with c1 by lia.
      destruct (fair_cases a Hi) as [[Pl ->]|(n & b & -> & Nm)].
      + pose proof (proj2 (param_spec a (proj1 Pl))) as Wd.
        assert (Hp : is_param (arg_spec a)) by (destruct a; destruct Wd as (r & -> & _); now eexists). split.
        * intros K Kb. apply Forall_cons_iff in K as [K1 K2]. rewrite Forall_app in Kb. destruct Kb as [Kb1 Kb2]. destruct A as (holes & u & Gv & Rd & W); auto.
          destruct (arg_back_reads G Gf gv a c p x c1 Pl Ra Ha Ex Lx K1) as (b & Eb & A1 & _). destruct (A1 Kb1) as (v & Rv & Wv).
          exists (SParam (arg_hole a c1) :: holes), (v ++ u). split; [eapply gives_here; eauto|]. rewrite Eb. split; [now constructor|]. eapply within_app; [| |eauto|eauto]; lia.
        * intros holes items' u Gv Rd. pose proof (gives_given a c p x c1 _ _ _ Pl Ha Gv) as K1.
          destruct (gives_tail a _ _ _ _ Hp Gv) as (h & hs & -> & Gv'). pose proof (gives_here a c p x c1 _ _ _ Pl K1 Ha Lx Gv') as Gv''.
          apply (gives_fun _ _ _ _ Gv) in Gv''. injection Gv'' as ->. inversion Rd as [| |? b v ? i u' Rv Rd']; subst items' u.
          destruct (arg_back_reads G Gf gv a c p x c1 Pl Ra Ha Ex Lx K1) as (b0 & Eb & _ & B1). apply B1 in Rv as [-> Kb1]. destruct (B _ _ _ Gv' Rd') as (-> & K2 & Kb2).
          rewrite Eb, Forall_app. repeat split; auto.
      + pose proof (proj2 (param_spec (ArgMenu n (ABlock b)) Nm)) as Wd. cbn [item_size value_size] in Sz.
        assert (Hp : is_param (arg_spec (ArgMenu n (ABlock b)))) by (destruct Wd as (r & -> & _); now eexists).
        cbn [conv_arg conv_value] in Ha. apply bind_ok in Ha as ([bs0 c0] & _ & [= <- <- <-]). cbn [menu_out]. replace (c + N.of_nat (block_size b)) with c0 by lia.
        cbn [item_read app item_back item_alone]. split.
        * intros K Kb. apply Forall_cons_iff in K as [_ K2]. destruct A as (holes & u & Gv & Rd & W); auto.
          exists (SParam (ArgMenu n (AValue (lit "@" ++ dec_of_N c0))) :: holes), u. split; [now apply gives_menu|]. split; [change u with ([] ++ u); repeat constructor; auto|].
          destruct W as [W1 W2]. split; [exact W1|]. intros k Ik. apply W2 in Ik. lia.
        * intros holes items' u Gv Rd. destruct (gives_tail _ _ _ _ _ Hp Gv) as (h & hs & -> & Gv').
          assert (Gv'' : gives (arg_spec (ArgMenu n (ABlock b)) :: map item_spec items) ((lit "@" ++ dec_of_N c0) :: ps') (SParam (ArgMenu n (AValue (lit "@" ++ dec_of_N c0))) :: hs)) by now apply gives_menu.
          apply (gives_fun _ _ _ _ Gv) in Gv''. injection Gv'' as ->. inversion Rd as [| |? b1 v ? i u' Rv Rd']; subst items' u.
          destruct (B _ _ _ Gv' Rd') as (-> & K2 & Kb2). inversion Rv; subst. repeat split; auto. constructor; auto. exact I.
  Qed.
  Lemma block_menu_reads b c last bs c' : block_fair b -> Forall (ref_ok gv G) (refs b) ->
    convert_block b c last = Ok (bs, c') -> emb G c bs -> c' < 2 ^ 31 ->
    (block_given b /\ Forall gv (refs b) -> exists u, reads_block G (c + 1) (block_back (numbered_menus c b)) u /\ within c u c') /\
    (forall x u, reads_block G (c + 1) x u -> x = block_back (numbered_menus c b) /\ block_given b /\ Forall gv (refs b)).
  Proof.
    intros P R H E L. apply convert_block_inv in H as (ps & ba & c1 & z1 & b1 & c2 & z2 & b2 & Ha & H1 & H2 & ->). unfold refs in *. rewrite !Forall_app in R. destruct R as (Q1 & Q2 & Q3).
    pose proof (conv_args_le _ _ _ _ _ Ha) as [La _]. pose proof (sub_ptr_le _ _ _ _ _ H1) as [L1 _]. pose proof (sub_ptr_le _ _ _ _ _ H2) as [L2 _].
    apply emb_head in E as [E0 E]. apply (emb_app _ _ _ c1) in E as [Ea E]; [|lia]. apply (emb_app _ _ _ c2) in E as [E1 E2]; [|lia].
    rewrite <- conv_args_shown in Ha. rewrite <- (flat_map_shown item_read) in Q3 by reflexivity.
    destruct (items_menu_reads _ (fair_shown _ P) Q3 _ _ _ _ Ha Ea) as [A3 B3]; [lia|].
    destruct (sub_back_reads G Gf gv _ _ _ _ _ Q1 H1 E1) as [A1 B1]; [lia|]. destruct (sub_back_reads G Gf gv _ _ _ _ _ Q2 H2 E2) as [A2 B2]; [lia|].
    rewrite !Forall_app, <- (flat_map_shown item_read) by reflexivity. rewrite menus_shown in A3, B3.
    change (block_back (numbered_menus c b)) with
      (MkBlock (sub_back (ab_sub_stack1 b)) (sub_back (ab_sub_stack2 b)) (ab_color b) (ab_op_code b) (map item_back (shown (menus_out (c + 1) (ab_content b)))) (ab_type b)). split.
    - intros ([T K] & K1 & K2 & K3). apply given_shown in K. destruct (A3 K K3) as (holes & u3 & Gv & R3 & W3). destruct (A1 K1) as (u1 & R1 & W1). destruct (A2 K2) as (u2 & R2 & W2).
      exists ((c + 1) :: u1 ++ u2 ++ u3). split.
      + eapply (rd_block G (c + 1) _ (map item_spec (shown (ab_content b))) holes _ u1 _ u2 _ u3 (ab_type b) E0); auto.
        * now apply fair_words.
        * cbn [raw bl_type bl_type_name]. now apply type_text_iff, type_back.
      + destruct W1 as [N1 R1'], W2 as [N2 R2'], W3 as [N3 R3']. split.
        * constructor.
          { rewrite !in_app_iff. intros [X|[X|X]]; [apply R1' in X|apply R2' in X|apply R3' in X]; lia. }
          apply NoDup_app_intro; auto; [apply NoDup_app_intro; auto|].
          { intros k X Y. apply R2' in X. apply R3' in Y. lia. }
          { intros k X Y. apply R1' in X. apply in_app_iff in Y as [Y|Y]; [apply R2' in Y|apply R3' in Y]; lia. }
        * intros k [<-|X]; [lia|]. rewrite !in_app_iff in X. destruct X as [X|[X|X]]; [apply R1' in X|apply R2' in X|apply R3' in X]; lia.
    - intros x u Rd. inversion Rd as [id pb ws holes s1 u1 s2 u2 items u3 ty Eg R1 R2 Wd Gv R3 T]. subst id u x.
      rewrite (Gf _ _ _ Eg E0) in *. apply fair_words in Wd; auto. subst ws. cbn [raw bl_sub_stack1 bl_sub_stack2 bl_type bl_type_name bl_parameters bl_color bl_op_code] in *.
      apply type_text_iff, type_back_inv in T as [T ->]. destruct (B3 _ _ _ Gv R3) as (-> & K & K3). apply (proj1 (given_shown _)) in K. apply B1 in R1 as [-> K1]. apply B2 in R2 as [-> K2].
      split; [reflexivity|]. rewrite !Forall_app. split; [split; auto|auto].
  Qed.
End Menus.

(** ** Stacks *)
Section Stacks.
  Context (G : N -> block -> Prop) (Gf : forall id x y, G id x -> G id y -> x = y) (gv : ablock -> Prop).
  (** a block that is read exactly if [gv] holds for it and for the blocks that it refers to *)
  Definition menu_trips (b : ablock) : Prop := forall c last bs c', convert_block b c last = Ok (bs, c') -> emb G c bs -> c' < 2 ^ 31 ->
    (Forall gv (read_again b) -> exists u, reads_block G (c + 1) (block_back (numbered_menus c b)) u /\ within c u c') /\
    (forall x u, reads_block G (c + 1) x u -> x = block_back (numbered_menus c b) /\ Forall gv (read_again b)).
  Lemma menu_stack_trip l : Forall menu_trips l -> l <> [] -> forall c bs c',
    conv_stack convert_block l c = Ok (bs, c') -> emb G c bs -> c' < 2 ^ 31 ->
    (Forall (fun b => Forall gv (read_again b)) l -> exists u, reads_stack G (c + 1) (map block_back (stack_menus c l)) u /\ within c u c') /\
    (forall l' u, reads_stack G (c + 1) l' u -> l' = map block_back (stack_menus c l) /\ Forall (fun b => Forall gv (read_again b)) l).
  Proof.
    intros F. induction F as [|b l K F IH]; [congruence|]. intros _ c bs c' H E L. cbn [conv_stack] in H.
    apply bind_ok in H as ([x c1] & H1 & H). apply bind_ok in H as ([y c2] & H2 & [= <- <-]).
    pose proof (all_numbered _ _ _ _ _ H1) as [[L1 _] _]. pose proof (conv_stack_le _ _ _ _ H2) as [L2 _]. apply (emb_app _ _ _ c1) in E as [Ex Ey]; [|lia].
    destruct (K c _ x c1 H1 Ex) as [A B]; [lia|].
    pose proof (all_sized _ _ _ _ _ H1) as Sz. cbn [stack_menus map]. replace (c + N.of_nat (block_size b)) with c1 by lia.
    assert (Nx : exists pb, G (c + 1) pb /\ bl_next_block pb = match l with [] => (-1)%Z | _ => Z.of_N (c1 + 1) end).
    { apply convert_block_inv in H1 as (ps & ba & ca & z1 & b1 & cb & z2 & b2 & _ & _ & _ & ->). apply emb_head in Ex as [Ex _].
      eexists. split; [exact Ex|]. cbn [raw bl_next_block]. destruct l as [|b' l]; [reflexivity|]. cbn [length Nat.eqb].
      apply stack_sized in H2. unfold blocks_size in H2. cbn [stack_size] in H2. destruct b'. cbn [block_size] in H2. unfold i32_of_u32. destruct (N.ltb_spec (c1 + 1) 2147483648); lia. }
    destruct Nx as (pb & Gp & Np). destruct l as [|b' l].
    - cbn in H2. injection H2 as <- <-. split.
      + intros Kg. inversion Kg as [|? ? Kb _]; subst. destruct (A Kb) as (u & R & W). exists u. split; [|auto]. eapply rd_last; eauto. lia.
      + intros l' u R. inversion R as [id pb' b2 v Eg Hn Rb|id pb' b2 v l2 w Eg Hn Rb Rs]; subst.
        * apply B in Rb as [-> ?]. auto.
        * rewrite (Gf _ _ _ Eg Gp) in Hn. lia.
    - destruct (IH ltac:(discriminate) _ _ _ H2 Ey L) as [A' B']. split.
      + intros Kg. inversion Kg as [|? ? Kb Kl]; subst. destruct (A Kb) as (u & R & W). destruct (A' Kl) as (v & R' & W'). exists (u ++ v).
        split; [|eapply within_app; [| |eauto|eauto]; lia]. eapply rd_next; eauto; rewrite Np; [lia|]. now rewrite N2Z.id.
      + intros l' u R. inversion R as [id pb' b2 v Eg Hn Rb|id pb' b2 v l2 w Eg Hn Rb Rs]; subst.
        * rewrite (Gf _ _ _ Eg Gp) in Hn. lia.
        * rewrite (Gf _ _ _ Eg Gp) in Rs. rewrite Np, N2Z.id in Rs. apply B in Rb as [-> ?]. apply B' in Rs as [-> ?]. auto.
  Qed.
End Stacks.
Theorem menu_iff_by gv l c : blocks_into l = Ok c -> 9 + N.of_nat (length c) < 2 ^ 31 -> Forall (menu_trips (graph c) gv) l ->
  forall l', blocks_try_from c = Ok l' <-> Forall (fun b => Forall gv (read_again b)) l /\ l' = map block_back (stack_menus 9 l).
Proof.
  intros H L P l'. pose proof (into_stack _ _ H) as Hs. destruct (into_numbered _ _ H) as [Hn He]. pose proof (graph_emb _ _ Hn L) as E. rewrite try_from_iff.
  assert (Pn : Forall (fun b => parse_u32 (bl_id b) <> None) c).
  { apply Forall_forall. intros q Q. apply In_nth_error in Q as [j J]. rewrite (proj2 Hn _ _ J), parse_u32_dec; [discriminate|].
    assert (j < length c)%nat by (apply nth_error_Some; congruence). unfold U32MAX. lia. }
  destruct l as [|b l].
  - rewrite (proj2 He eq_refl) in *. split.
    + intros (u & [_ [(_ & -> & _)|(id & S & R)]] & _); [auto|]. destruct S as ([|? ?] & ? & ? & X & _); discriminate.
    + intros [_ ->]. exists []. split; [split; [constructor|left; auto]|constructor].
  - assert (Hc : c <> []) by (intros X; apply He in X; discriminate).
    destruct (menu_stack_trip (graph c) (graph_fun c) gv (b :: l) P ltac:(discriminate) 9 _ _ Hs E L) as [A B]. split.
    + intros (u & [_ [(X & _)|(id & S & R)]] & _); [congruence|]. apply (start_numbered _ _ Hn L Hc) in S. subst id. apply B in R as [-> ?]. auto.
    + intros [K ->]. destruct (A K) as (u & R & [Nu _]). exists u. split; [|auto]. split; [auto|]. right. exists 10. split; [|exact R]. now apply (start_numbered _ _ Hn L).
Qed.
Lemma fair_trips (G : N -> block -> Prop) b : (forall id x y, G id x -> G id y -> x = y) -> Forall block_fair (read_again b) -> menu_trips G block_given b.
Proof.
  intros Gf F c last bs c' H E L. change (read_again b) with (b :: refs b) in *. apply Forall_cons_iff in F as [P R].
  destruct (block_menu_reads G Gf block_given b c last bs c') as [A B]; auto.
  { eapply Forall_impl; [|exact R]. intros y. now apply fair_ref. }
  split.
  - intros K. apply Forall_cons_iff in K. now apply A.
  - intros x u X. apply B in X. now rewrite Forall_cons_iff.
Qed.
Theorem menu_iff l c : blocks_into l = Ok c -> 9 + N.of_nat (length c) < 2 ^ 31 -> Forall (fun b => Forall block_fair (read_again b)) l ->
  forall l', blocks_try_from c = Ok l' <-> Forall (fun b => Forall block_given (read_again b)) l /\ l' = map block_back (stack_menus 9 l).
Proof. intros H L P. apply menu_iff_by; auto. eapply Forall_impl; [|exact P]. intros b. apply fair_trips, graph_fun. Qed.

(** ** What has come back *)
Lemma menu_holes k i : ~ has_hole i -> ~ has_hole (menu_out k i).
Proof. destruct i as [t|[n v|n v|n v|n v]]; auto. destruct v; auto. Qed.
Lemma menu_item_all P k i : item_all P i -> item_all P (menu_out k i).
Proof. destruct i as [t|[n v|n v|n v|n v]]; auto. destruct v; cbn; auto. Qed.
Lemma menus_no_holes k b : no_holes b -> no_holes (numbered_menus k b).
Proof.
  destruct b as [s1 s2 col op items ty]. unfold numbered_menus. cbn [no_holes ab_sub_stack1 ab_sub_stack2 ab_content ab_color ab_op_code ab_type]. intros (H & Hi & H1 & H2). split; [|split; [|auto]].
  - clear Hi. generalize (k + 1). induction H; intros j; constructor; auto. now apply menu_holes.
  - clear H. generalize (k + 1). induction items as [|i l IH]; intros j; [exact I|]. cbn [menus_out items_all] in *. destruct Hi. split; auto. now apply menu_item_all.
Qed.
Lemma menus_refs k b : refs (numbered_menus k b) = refs b.
Proof. unfold refs, numbered_menus. cbn [ab_sub_stack1 ab_sub_stack2 ab_content]. now rewrite menus_read. Qed.
Lemma menus_block_given k b : block_given (numbered_menus k b) <-> block_given b.
Proof. unfold block_given, numbered_menus. cbn [ab_type ab_content]. now rewrite menus_given. Qed.
Lemma refs_childless b y : no_holes b -> In y (refs b) -> childless y.
Proof.
  destruct b as [s1 s2 col op items ty]. cbn [no_holes]. unfold refs. cbn [ab_sub_stack1 ab_sub_stack2 ab_content]. intros (_ & Hi & H1 & H2) I.
  assert (Sb : forall s, sub_all no_holes s -> In y (sub_read s) -> childless y).
  { intros s Hs X. unfold sub_read in X. destruct (sub_last last_block s) as [z|] eqn:E; cbn in X; [|tauto]. destruct X as [->|[]]. apply (sub_whole s); auto. destruct s; [apply stack_all_intro, all_whole|exact Logic.I]. }
  apply in_app_iff in I as [I|I]; [now apply (Sb s1)|]. apply in_app_iff in I as [I|I]; [now apply (Sb s2)|]. clear - Hi I. induction items as [|i l IH]; cbn [flat_map items_all] in *; [destruct I|].
  apply in_app_iff in I as [I|I]; [|now apply IH]. destruct Hi as [Hi _]. destruct i as [t|[n v|n v|n v|n v]]; cbn in I; try tauto; destruct v as [t|b|k|]; cbn in I; try tauto; destruct I as [<-|[]]; now apply all_whole.
Qed.
Lemma menus_read_plain k b : no_holes b -> Forall block_fair (read_again b) -> Forall block_plain (read_again (numbered_menus k b)).
Proof.
  intros Nh F. change (read_again (numbered_menus k b)) with (numbered_menus k b :: refs (numbered_menus k b)). rewrite menus_refs. change (read_again b) with (b :: refs b) in F. apply Forall_cons_iff in F as [F R].
  constructor; [now apply menus_plain|]. rewrite Forall_forall in *. intros y I. apply fair_childless; auto. eapply refs_childless; eauto.
Qed.
Lemma menu_kept k b : no_holes b -> Forall block_fair (read_again b) -> Forall block_given (read_again b) -> kept (block_back (numbered_menus k b)).
Proof.
  intros Nh F K. apply back_kept.
  - now apply menus_no_holes.
  - now apply menus_read_plain.
  - change (read_again (numbered_menus k b)) with (numbered_menus k b :: refs (numbered_menus k b)). rewrite menus_refs. change (read_again b) with (b :: refs b) in K. apply Forall_cons_iff in K as [K R].
    constructor; [now apply menus_block_given|exact R].
Qed.
Theorem menu_settled l c l' : blocks_into l = Ok c -> 9 + N.of_nat (length c) < 2 ^ 31 -> Forall (fun b => Forall block_fair (read_again b)) l ->
  blocks_try_from c = Ok l' -> Forall kept l' /\ map block_back l' = l' /\ stack_menus 9 l' = l'.
Proof.
  intros H L P X. apply (menu_iff _ _ H L P) in X as [K ->].
  assert (Nh : Forall no_holes l).
  { pose proof (into_stack _ _ H) as Hs. apply stack_holes in Hs; [|apply stack_all_intro, all_holes]. clear - Hs. induction l; constructor; apply Hs || apply IHl, Hs. }
  assert (F : forall k, Forall kept (map block_back (stack_menus k l))).
  { clear - P K Nh. revert K Nh. induction P as [|b l Pb P IH]; intros K Nh k; cbn [stack_menus map]; [constructor|]. apply Forall_cons_iff in K as [Kb K]. apply Forall_cons_iff in Nh as [Nb Nh].
    constructor; [|now apply IH]. now apply menu_kept. }
  specialize (F 9). split; [exact F|]. split.
  - clear - F. induction F as [|b l' Kb F IH]; [reflexivity|]. cbn [map]. now rewrite kept_block_back, IH.
  - revert F. generalize (map block_back (stack_menus 9 l)). clear. intros l. generalize 9. induction l as [|b l IH]; intros k F; [reflexivity|]. apply Forall_cons_iff in F as [Kb F]. cbn [stack_menus]. rewrite IH by auto. f_equal.
    destruct Kb as (_ & _ & _ & _ & Kb). destruct b as [s1 s2 col op items ty]. unfold numbered_menus. cbn [ab_sub_stack1 ab_sub_stack2 ab_content ab_color ab_op_code ab_type] in *. f_equal.
    generalize (k + 1). clear - Kb. induction Kb as [|i l Hi Kb IH]; intros j; [reflexivity|]. cbn [menus_out]. rewrite IH. f_equal.
    destruct i as [t|[n v|n v|n v|n v]]; try reflexivity. destruct v; try reflexivity. destruct Hi as [_ Hi]. cbn in Hi. tauto.
Qed.

(** ** No panic *)
Section MenuPanic.
  Context (G : N -> block -> Prop) (Gf : forall id x y, G id x -> G id y -> x = y).
  Lemma fair_safe y : block_fair y -> ref_safe G y.
  Proof. intros F k pb C. apply (plain_safe G Gf y); auto. now apply fair_childless. Qed.
  Lemma menu_holes_safe items : Forall item_fair items -> Forall (ref_safe G) (flat_map item_read items) -> forall c ps bs c',
    conv_args convert_block items c = Ok (ps, bs, c') -> emb G c bs -> c' < 2 ^ 31 -> forall holes, gives (map item_spec items) ps holes ->
    forall a id, In (SParam a) holes -> refers a id -> safe G id.
  Proof.
    intros F. induction F as [|[t|a0] items Hi F IH]; cbn [conv_args map item_spec flat_map]; intros R c ps bs c' H E L holes Gv a id Ia Ra.
    - injection H as <- <- <-. inversion Gv; subst. destruct Ia.
    - inversion Gv as [|t' ts args is P Gv'|? ? ? ? ? ? ? P|? ? ? ? ? ? ? P|? ? ? ? ? ? ? P|? ? ? ? ? ? P]; subst.
      2-5: destruct P as (r & -> & _); destruct Hi as [_ Hi]; destruct Hi; now eexists.
      destruct Ia as [Ia|Ia]; [discriminate|]. eapply (IH R); eauto.
    - rewrite Forall_app in R. destruct R as [Rr R]. apply bind_ok in H as ([[p x] c1] & Ha & H). apply bind_ok in H as ([[ps' y] c2] & H & [= <- <- <-]).
      pose proof (conv_args_le _ _ _ _ _ H) as [L2 _]. pose proof (conv_arg_le _ _ _ _ _ Ha) as [L1 _].
      apply (emb_app G c x c1 y) in E as [Ex Ey]; [|lia]. assert (Lx : c1 < 2 ^ 31) by lia.
      destruct (fair_cases a0 Hi) as [[Pl _]|(n & b & -> & Nm)].
      + pose proof (proj2 (param_spec a0 (proj1 Pl))) as Wd.
        assert (Hp : is_param (arg_spec a0)) by (destruct a0; destruct Wd as (r & -> & _); now eexists).
        destruct (gives_tail a0 _ _ _ _ Hp Gv) as (h & hs & -> & Gv'). destruct Ia as [Ia|Ia]; [|eapply (IH R); eauto]. injection Ia as ->.
        assert (Hc : conv_args convert_block [SParam a0] c = Ok ([p], x, c1)) by (cbn [conv_args]; rewrite Ha; cbn [bind]; now rewrite app_nil_r).
        assert (Hg : gives (map item_spec [SParam a0]) [p] [SParam a]) by (cbn [map item_spec]; inversion Gv; subst; constructor; auto; constructor).
        assert (Rr' : Forall (ref_safe G) (flat_map item_read [SParam a0])) by (cbn [flat_map]; now rewrite app_nil_r).
        refine (holes_safe G Gf [SParam a0] _ Rr' _ c [p] x c1 Hc Ex Lx [SParam a] Hg a id (or_introl eq_refl) Ra).
        * constructor; [exact Pl|constructor].
        * right. intros t. apply plain_safe; [exact Gf|apply boolean_plain].
      + pose proof (proj2 (param_spec (ArgMenu n (ABlock b)) Nm)) as Wd. assert (Hp : is_param (arg_spec (ArgMenu n (ABlock b)))) by (destruct Wd as (r & -> & _); now eexists).
        destruct (gives_tail _ _ _ _ _ Hp Gv) as (h & hs & -> & Gv'). destruct Ia as [Ia|Ia]; [|eapply (IH R); eauto]. injection Ia as ->.
        assert (Gv'' : gives (arg_spec (ArgMenu n (ABlock b)) :: map item_spec items) (p :: ps') (SParam (ArgMenu n (AValue p)) :: hs)) by now apply gives_menu.
        apply (gives_fun _ _ _ _ Gv) in Gv''. injection Gv'' as ->. destruct Ra as [(m & Em)|[(m & Em)|(m & Em)]]; discriminate.
  Qed.
  Lemma menu_block_safe b c last bs c' : Forall block_fair (read_again b) -> convert_block b c last = Ok (bs, c') -> emb G c bs -> c' < 2 ^ 31 -> safe G (c + 1).
  Proof.
    change (read_again b) with (b :: refs b). intros F. apply Forall_cons_iff in F as [P F]. assert (R : Forall (ref_safe G) (refs b)) by (eapply Forall_impl; [|exact F]; apply fair_safe).
    intros H E L u Hf. apply convert_block_inv in H as (ps & ba & c1 & z1 & b1 & c2 & z2 & b2 & Ha & H1 & H2 & ->). unfold refs in R. rewrite !Forall_app in R. destruct R as (Q1 & Q2 & Q3).
    pose proof (conv_args_le _ _ _ _ _ Ha) as [La _]. pose proof (sub_ptr_le _ _ _ _ _ H1) as [L1 _]. pose proof (sub_ptr_le _ _ _ _ _ H2) as [L2 _].
    apply emb_head in E as [E0 E]. apply (emb_app _ _ _ c1) in E as [Ea E]; [|lia]. apply (emb_app _ _ _ c2) in E as [E1 E2]; [|lia].
    rewrite <- conv_args_shown in Ha. rewrite <- (flat_map_shown item_read) in Q3 by reflexivity.
    inversion Hf as [|u' id pb o Eg Un Hz Hs|u' id pb s1 u1 o Eg R1 Un Hz Hs|u' id pb s1 u1 s2 u2 ws o Eg R1 R2 Un Wd Cf|u' id pb s1 u1 s2 u2 ws holes o Eg R1 R2 Un Wd Gv Fi|]; subst u' id;
      (destruct o; [discriminate|]); rewrite (Gf _ _ _ Eg E0) in *; cbn [raw bl_sub_stack1 bl_sub_stack2 bl_parameters] in *.
    - eapply (sub_safe G Gf _ _ _ _ _ Q1 H1 E1); eauto. lia.
    - eapply (sub_safe G Gf _ _ _ _ _ Q2 H2 E2); eauto.
    - apply fair_words in Wd; auto. subst ws. destruct Cf as (before & t & after & used & rest & is & Ew & _ & _ & _ & Wf). inversion Wf as [t' args B| | | | |]; subst.
      assert (It : In t (map item_spec (shown (ab_content b)))) by (rewrite Ew, in_app_iff; right; now left). apply in_map_iff in It as (i & <- & Ii).
      revert B. apply named_not_bad. apply fair_shown, fair_named in P. rewrite Forall_forall in P. now apply P.
    - apply fair_words in Wd; auto. subst ws. apply items_panic in Fi as (a & id & Ia & Ra & Ns). apply Ns.
      eapply (menu_holes_safe _ (fair_shown _ P) Q3); [exact Ha|exact Ea|lia|exact Gv|exact Ia|exact Ra].
  Qed.
  Lemma menu_stack_safe l : Forall (fun b => Forall block_fair (read_again b)) l -> l <> [] -> forall c bs c',
    conv_stack convert_block l c = Ok (bs, c') -> emb G c bs -> c' < 2 ^ 31 -> forall u, ~ fails_stack G u (c + 1) None.
  Proof.
    intros F. induction F as [|b l K F IH]; [congruence|]. intros _ c bs c' H E L u Hf. cbn [conv_stack] in H.
    apply bind_ok in H as ([x c1] & H1 & H). apply bind_ok in H as ([y c2] & H2 & [= <- <-]).
    pose proof (all_numbered _ _ _ _ _ H1) as [[L1 _] _]. pose proof (conv_stack_le _ _ _ _ H2) as [L2 _]. apply (emb_app _ _ _ c1) in E as [Ex Ey]; [|lia].
    inversion Hf as [u' id o Hb|u' id pb' b0 v o Eg Hn Rb Un Hs]; subst u' id o.
    - revert Hb. eapply (menu_block_safe b c); eauto. lia.
    - apply convert_block_inv in H1 as (ps & ba & ca & z1 & b1 & cb & z2 & b2 & _ & _ & _ & ->). apply emb_head in Ex as [Ex _].
      rewrite (Gf _ _ _ Eg Ex) in *. cbn [raw bl_next_block] in *. destruct l as [|b' l]; [cbn in Hn; lia|]. cbn [length Nat.eqb] in *.
      replace (Z.to_N (i32_of_u32 (c1 + 1))) with (c1 + 1) in Hs; [eapply IH; eauto; discriminate|].
      apply stack_sized in H2. unfold blocks_size in H2. cbn [stack_size] in H2. destruct b'. cbn [block_size] in H2. unfold i32_of_u32. destruct (N.ltb_spec (c1 + 1) 2147483648); lia.
  Qed.
End MenuPanic.
Theorem menu_safe l c : blocks_into l = Ok c -> 9 + N.of_nat (length c) < 2 ^ 31 -> Forall (fun b => Forall block_fair (read_again b)) l -> blocks_try_from c <> Panic.
Proof.
  intros H L P X. pose proof (into_stack _ _ H) as Hs. destruct (into_numbered _ _ H) as [Hn He]. pose proof (graph_emb _ _ Hn L) as E.
  apply (try_from_fails c None) in X as [(before & b & after & _ & _ & _ & X)|(_ & id & S & Hf)]; [discriminate|].
  assert (Hc : c <> []) by (intros ->; destruct S as ([|? ?] & ? & ? & Y & _); discriminate). apply (start_numbered _ _ Hn L Hc) in S. subst id.
  assert (Hl : l <> []) by (intros ->; now apply Hc, He). exact (menu_stack_safe (graph c) (graph_fun c) l P Hl 9 _ _ Hs E L [] Hf).
Qed.
