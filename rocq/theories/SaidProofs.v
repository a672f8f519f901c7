(** Proofs about which block trees can be read again at all. *)
From Verif Require Import Base Str Dec Flt M_Logic A_Block SpecBlock BlockContentProofs BlockProofs BlockReadProofs BlockWriteProofs BlockTripProofs BlockFailProofs BackProofs SpreadProofs
  P_BlockError SpecBack SpecSettle SpecSpread SpecSaid.
From Coq Require Import Lia.

(** ** Trees of words *)
(** what [item_free] and [item_said] are for texts and names without spaces *)
Definition semi (i : spec_item ablock) : Prop :=
  match i with
  | SText t => ~ In 32 t
  | SParam (ArgString n v) => name_ok n /\ match v with AValue s => forall r k, s = 64 :: r -> ~ id_text r k | _ => True end
  | SParam (ArgNumber n v) => name_ok n /\ match v with AValue x => canonical F64 x = true | _ => True end
  | SParam (ArgBoolean n _) => name_ok n
  | SParam (ArgMenu n v) => ~ In 32 n /\ match v with ABlock _ => False | _ => True end
  end.
Definition good (i : spec_item ablock) : Prop :=
  match i with
  | SText t => ~ is_param t
  | SParam (ArgString _ (AValue s)) => forall r, s <> 64 :: r
  | SParam (ArgMenu n _) => n <> []
  | SParam (ArgNumber _ AEmpty) | SParam (ArgBoolean _ AEmpty) => False
  | _ => True
  end.
Definition block_semi (b : ablock) : Prop := Forall semi (ab_content b).
Definition block_good (b : ablock) : Prop := not_list (ab_type b) /\ Forall good (ab_content b).
Lemma semi_good i : semi i -> good i -> item_plain i /\ item_given i.
Proof.
  destruct i as [t|[n v|n v|n v|n v]]; cbn [semi good item_plain item_given arg_name]; [unfold text_ok; auto|..]; destruct v as [t|b|k|]; cbn [name_ok]; tauto.
Qed.
Lemma semis_good l : Forall semi l -> Forall good l -> Forall item_plain l /\ Forall item_given l.
Proof. induction 1 as [|i l S F IH]; intros K; [split; constructor|]. apply Forall_cons_iff in K as [Ki K]. destruct (IH K), (semi_good i S Ki). split; constructor; auto. Qed.

(** ** Counting parameters *)
Lemma gives_count ws args (is : list (spec_item ablock)) : gives ws args is -> (count_params ws <= length args)%nat.
Proof.
  assert (P : forall t l n, param_word t l n -> starts_with [CH_PERCENT] t = true) by (intros t l n (r & -> & _); reflexivity).
  assert (Q : forall t, ~ is_param t -> starts_with [CH_PERCENT] t = false).
  { intros [|c t] H; [reflexivity|]. rewrite starts_percent. change CH_PERCENT with 37. destruct (N.eqb_spec c 37) as [->|]; [|reflexivity]. destruct H. now eexists. }
  induction 1; rewrite ?count_params_cons; cbn [length]; rewrite ?Q by auto; try (erewrite P by eauto); try lia. cbn. lia.
Qed.
Lemma conv_count items : forall c ps bs c', conv_args convert_block items c = Ok (ps, bs, c') -> (length ps <= count_params (map item_spec items))%nat.
Proof.
  induction items as [|[t|a] items IH]; cbn [conv_args map item_spec]; intros c ps bs c' H.
  - injection H as <- <- <-. cbn. lia.
  - rewrite count_params_cons. apply IH in H. lia.
  - apply bind_ok in H as ([[p x] c1] & _ & H). apply bind_ok in H as ([[ps' y] c2] & H & [= <- _ _]). apply IH in H. rewrite count_params_cons.
    assert (P : starts_with [CH_PERCENT] (arg_spec a) = true) by (destruct a; reflexivity). rewrite P. cbn [length]. lia.
Qed.
Lemma semi_param (a : argument ablock) : is_param (arg_spec a).
Proof. destruct a; eexists; reflexivity. Qed.
(** words that take one argument per parameter are those of good items *)
Lemma gives_good items : Forall semi items -> forall c ps bs c' (holes : list (spec_item ablock)), conv_args convert_block items c = Ok (ps, bs, c') ->
  gives (map item_spec items) ps holes -> Forall good items.
Proof.
  induction 1 as [|[t|a] items Si F IH]; cbn [conv_args map item_spec]; intros c ps bs c' holes H Gv; [constructor|..].
  - assert (NP : ~ is_param t).
    { intros [r ->]. apply gives_count in Gv. apply conv_count in H. rewrite count_params_cons in Gv. change (starts_with [CH_PERCENT] (37 :: r)) with true in Gv. exact (Nat.nle_succ_diag_l _ (Nat.le_trans _ _ _ Gv H)). }
    constructor; [exact NP|]. inversion Gv as [|t' ts args is P Gv'|? ? ? ? ? ? ? P|? ? ? ? ? ? ? P|? ? ? ? ? ? ? P|? ? ? ? ? ? P]; subst; [eapply IH; eauto|..];
      destruct NP; destruct P as (r & -> & _); now eexists.
  - apply bind_ok in H as ([[p x] c1] & Ha & H). apply bind_ok in H as ([[ps' y] c2] & H & [= <- _ _]).
    destruct (gives_tail a _ _ _ _ (semi_param a) Gv) as (h & hs & -> & Gv'). constructor; [|eapply IH; eauto].
    assert (N1 : forall n v, a = ArgNumber n v \/ (exists w, a = ArgBoolean n w) -> name_ok n -> item_given (SParam a)).
    { intros n v _ N. destruct a as [m w|m w|m w|m w]; cbn [semi] in Si; try exact I.
      - destruct w as [q|q|q|]; try exact I. eapply (gives_given (ArgNumber m AEmpty)); [|exact Ha|exact Gv]. split; [apply Si|exact I].
      - destruct w as [q|q|q|]; try exact I. eapply (gives_given (ArgBoolean m AEmpty)); [|exact Ha|exact Gv]. split; [apply Si|exact I]. }
    destruct a as [n v|n v|n v|n v]; cbn [semi good] in *.
    + destruct v as [s|b|k|]; auto. cbn [conv_arg conv_value] in Ha. injection Ha as <- _ _. intros r ->. destruct Si as [Nm Si].
      pose proof (proj2 (param_spec (ArgString n (AValue (64 :: r))) Nm)) as (q & E & _). rewrite E in Gv.
      inversion Gv as [|? ? ? ? P|? ? ? w ? ? ? P Rv|? ? ? ? ? ? ? P Rv|? ? ? ? ? ? ? P Rv|? ? ? ? ? ? P]; subst; try (destruct P as (q' & P & _); discriminate).
      destruct w as [z|z|z|]; cbn [reads_as] in Rv; try tauto.
      * destruct Rv as [Rv _]. now apply (Rv r).
      * destruct Rv as (r' & X & Rv). injection X as <-. apply C81_id in Rv. eapply Si; eauto.
    + specialize (N1 n v (or_introl eq_refl) (proj1 Si)). destruct v; auto.
    + specialize (N1 n AEmpty (or_intror (ex_intro _ v eq_refl)) Si). destruct v; auto.
    + intros ->. cbn [arg_spec] in Gv. inversion Gv as [|? ? ? ? P|? ? ? ? ? ? ? P Rv|? ? ? ? ? ? ? P Rv|? ? ? ? ? ? ? P Rv|? ? ? ? ? ? P]; subst; destruct P as (q' & P & P'); try discriminate.
      injection P as <-. destruct P' as [P1 P2]. injection P2 as <-. now apply P1.
Qed.

(** ** Reading *)
Lemma semi_spec i : semi i -> ~ In 32 (item_spec i).
Proof.
  destruct i as [t|[n v|n v|n v|n v]]; cbn [semi item_spec]; [auto|..].
  - intros [N _]. exact (proj1 (param_spec (ArgString n v) N)).
  - intros [N _]. exact (proj1 (param_spec (ArgNumber n v) N)).
  - intros N. exact (proj1 (param_spec (ArgBoolean n v) N)).
  - intros [N _]. cbn [arg_spec]. intros [X|[X|[X|X]]]; try discriminate. auto.
Qed.
Lemma semi_words b id next ps z1 z2 : block_semi b -> forall ws, words (bl_spec (raw b id next ps z1 z2)) ws <-> ws = map item_spec (shown (ab_content b)).
Proof.
  intros F ws. cbn [raw bl_spec]. destruct (ab_content b) as [|i l] eqn:E; [rewrite words_split; reflexivity|].
  rewrite content_to_string_join, map_item_spec, words_split. change CH_SPACE with 32. rewrite split_join; [tauto|discriminate|].
  unfold block_semi in F. rewrite E in F. apply Forall_map. eapply Forall_impl; [|exact F]. apply semi_spec.
Qed.
Lemma good_shown l : Forall good (shown l) -> Forall good l.
Proof. destruct l; [constructor|auto]. Qed.
Lemma semi_shown l : Forall semi l -> Forall semi (shown l).
Proof. destruct l; auto. intros _. constructor; [intros []|constructor]. Qed.
Lemma semi_trips (G : N -> block -> Prop) b : (forall id x y, G id x -> G id y -> x = y) -> block_semi b -> trips G block_good b.
Proof.
  intros Gf P c last bs c' R H E L. change (read_again b) with (b :: refs b).
  assert (A : Forall good (ab_content b) ->
    (block_given b /\ Forall block_good (refs b) -> exists u, reads_block G (c + 1) (block_back b) u /\ within c u c') /\
    (forall x u, reads_block G (c + 1) x u -> x = block_back b /\ block_given b /\ Forall block_good (refs b))).
  { intros K. destruct (semis_good _ P K) as [K1 K2]. exact (block_back_reads G Gf block_good b c last bs c' K1 R H E L). }
  split.
  - intros K. apply Forall_cons_iff in K as [[T K] Kr]. destruct (A K) as [A1 _]. apply A1. split; [|exact Kr]. split; [exact T|]. now apply semis_good.
  - intros x u Rd.
    assert (K : Forall good (ab_content b)).
    { pose proof H as H'. apply convert_block_inv in H' as (ps & ba & c1 & z1 & b1 & c2 & z2 & b2 & Ha & H1 & H2 & ->). apply emb_head in E as [E0 E].
      inversion Rd as [id pb ws holes s1 u1 s2 u2 items u3 ty Eg R1 R2 Wd Gv R3 T]. subst id u x. rewrite (Gf _ _ _ Eg E0) in *. apply semi_words in Wd; auto. subst ws. cbn [raw bl_parameters] in Gv.
      rewrite <- conv_args_shown in Ha. apply good_shown. eapply gives_good; [apply semi_shown; exact P|exact Ha|exact Gv]. }
    destruct (A K) as [_ A2]. destruct (A2 x u Rd) as (-> & [T _] & Kr). split; [reflexivity|]. apply Forall_cons_iff. split; [split; auto|exact Kr].
Qed.
Lemma semi_iff l c : blocks_into l = Ok c -> 9 + N.of_nat (length c) < 2 ^ 31 -> Forall (fun b => Forall block_semi (read_again b)) l ->
  forall l', blocks_try_from c = Ok l' <-> Forall (fun b => Forall block_good (read_again b)) l /\ l' = map block_back l.
Proof.
  intros H L P. apply back_iff_by; auto. eapply Forall_impl; [|exact P]. intros b. apply Forall_impl. intros y. apply semi_trips, graph_fun.
Qed.

(** ** From words to texts and names *)
Lemma texts_good ts : Forall good (map SText ts) <-> words_ok ts.
Proof. unfold words_ok. rewrite Forall_map. reflexivity. Qed.
Lemma tidy_texts ts : map (tidy_item tidy) (map SText ts) = map SText ts.
Proof. rewrite map_map. reflexivity. Qed.
Lemma semi_item i : item_free i -> Forall semi (map (tidy_item tidy) (spread_item spread i)).
Proof.
  assert (T : forall ts, Forall (fun w => ~ In 32 w) ts -> Forall semi (map (tidy_item tidy) (map SText ts))) by (intros ts F; rewrite tidy_texts; apply Forall_map; exact F).
  assert (A : forall (n : option str), Forall semi (map (tidy_item tidy) match n with Some x => map SText (other_parts x) | None => [] end)) by (intros [x|]; [apply T, others_nospace|constructor]).
  assert (B : forall n, name_ok (tidy_name (option_map first_part n))).
  { intros [x|]; [|exact I]. cbn [option_map tidy_name]. pose proof (first_nospace x). destruct (first_part x); [exact I|]. split; [discriminate|assumption]. }
  destruct i as [t|[n v|n v|n v|n v]]; cbn [spread_item map tidy_item].
  - intros _. apply T, parts_nospace.
  - intros F. constructor; [|apply A]. split; [apply B|]. destruct v; exact F.
  - intros F. constructor; [|apply A]. split; [apply B|]. destruct v; exact F.
  - intros F. constructor; [|apply A]. apply B.
  - intros F. constructor; [|apply (A (Some n))]. split; [apply first_nospace|]. destruct v; exact F.
Qed.
Lemma good_item i : Forall good (map (tidy_item tidy) (spread_item spread i)) <-> item_said i.
Proof.
  assert (A : forall (n : option str), Forall good (map (tidy_item tidy) match n with Some x => map SText (other_parts x) | None => [] end) <-> match n with Some x => words_ok (other_parts x) | None => True end).
  { intros [x|]; [rewrite tidy_texts; apply texts_good|]. split; [auto|intros _; constructor]. }
  destruct i as [t|[n v|n v|n v|n v]]; cbn [spread_item map tidy_item].
  - rewrite tidy_texts. apply texts_good.
  - rewrite Forall_cons_iff, A. cbn [good item_said arg_name]. destruct v; cbn [value_map]; tauto.
  - rewrite Forall_cons_iff, A. cbn [good item_said arg_name]. destruct v; cbn [value_map]; tauto.
  - rewrite Forall_cons_iff, A. cbn [good item_said arg_name]. destruct v; cbn [value_map]; tauto.
  - rewrite Forall_cons_iff, (A (Some n)). cbn [good item_said arg_name]. tauto.
Qed.
Lemma semi_tidy b : block_free b -> block_semi (tidy (spread b)).
Proof.
  destruct b as [s1 s2 col op items ty]. unfold block_semi, block_free. cbn [spread tidy ab_content]. intros F. induction F as [|i items Fi F IH]; cbn [flat_map map]; [constructor|].
  rewrite map_app. apply Forall_app. split; [now apply semi_item|exact IH].
Qed.
Lemma good_tidy b : block_good (tidy (spread b)) <-> block_said b.
Proof.
  destruct b as [s1 s2 col op items ty]. unfold block_good, block_said. cbn [spread tidy ab_content ab_type].
  enough (E : Forall good (map (tidy_item tidy) (flat_map (spread_item spread) items)) <-> Forall item_said items) by (rewrite E; tauto).
  induction items as [|i items IH]; cbn [flat_map map]; [split; constructor|]. rewrite map_app, Forall_app, Forall_cons_iff, good_item, IH. tauto.
Qed.

(** ** An empty name is read as no name *)
(** the same specs to a reader *)
Definition like (x y : block) : Prop :=
  bl_color y = bl_color x /\ bl_id y = bl_id x /\ bl_next_block y = bl_next_block x /\ bl_op_code y = bl_op_code x /\ bl_parameters y = bl_parameters x /\
  bl_sub_stack1 y = bl_sub_stack1 x /\ bl_sub_stack2 y = bl_sub_stack2 x /\ bl_type y = bl_type x /\ bl_type_name y = bl_type_name x /\
  forall args, @content_parse ablock (bl_spec y) args = content_parse (bl_spec x) args.
Lemma like_refl x : like x x.
Proof. unfold like. tauto. Qed.
Lemma like_sym x y : like x y -> like y x.
Proof. unfold like. intros (? & ? & ? & ? & ? & ? & ? & ? & ? & H). repeat split; auto. Qed.
Lemma likes_refl l : Forall2 like l l.
Proof. induction l; constructor; auto using like_refl. Qed.
Lemma likes_sym l m : Forall2 like l m -> Forall2 like m l.
Proof. induction 1; constructor; auto using like_sym. Qed.
Lemma likes_app a b a' b' : Forall2 like a a' -> Forall2 like b b' -> Forall2 like (a ++ b) (a' ++ b').
Proof. apply Forall2_app. Qed.
Lemma likes_ids l m : Forall2 like l m -> map bl_id m = map bl_id l.
Proof. induction 1 as [|x y l m H F IH]; [reflexivity|]. cbn [map]. rewrite IH. f_equal. apply H. Qed.
Lemma last_id_ids l : last_id l = match rev (map bl_id l) with [] => Ok (-1)%Z | i :: _ => unwrap (parse_i32 i) end.
Proof. unfold last_id. rewrite <- map_rev. destruct (rev l); reflexivity. Qed.
(** *** Specs *)
Lemma items_parse_more a r r' : (forall args, @items_parse ablock r args = items_parse r' args) -> forall args, @items_parse ablock (a ++ r) args = items_parse (a ++ r') args.
Proof.
  intros H. induction a as [|w a IH]; intros args; [apply H|]. cbn [app items_parse]. destruct (starts_with [CH_PERCENT] w); [|now rewrite IH].
  destruct (token_parse w args) as [[x args']| |]; cbn [bind]; try reflexivity. now rewrite IH.
Qed.
Lemma items_parse_same w w' r r' : starts_with [CH_PERCENT] w = true -> starts_with [CH_PERCENT] w' = true -> (forall args, @token_parse ablock w args = token_parse w' args) ->
  (forall args, @items_parse ablock r args = items_parse r' args) -> forall args, @items_parse ablock (w :: r) args = items_parse (w' :: r') args.
Proof. intros P P' T H args. cbn [items_parse]. rewrite P, P', T. destruct (token_parse w' args) as [[x args']| |]; cbn [bind]; try reflexivity. now rewrite H. Qed.
Lemma split_more c a b : split_on c (a ++ c :: b) = split_on c a ++ split_on c b.
Proof.
  induction a as [|x a IH]; cbn [app split_on]; [now rewrite N.eqb_refl|]. rewrite IH. destruct (x =? c); [reflexivity|]. pose proof (split_on_nonnil c a) as Nn. destruct (split_on c a); [congruence|reflexivity].
Qed.
Lemma split_items items : items <> [] -> split_on 32 (join 32 (map (@item_spec ablock) items)) = flat_map (fun i => split_on 32 (item_spec i)) items.
Proof.
  induction items as [|i items IH]; [congruence|]. intros _. destruct items as [|j items]; [cbn [map join flat_map]; now rewrite app_nil_r|].
  specialize (IH ltac:(discriminate)). change (join 32 (map item_spec (i :: j :: items))) with (item_spec i ++ 32 :: join 32 (map item_spec (j :: items))). rewrite split_more, IH. reflexivity.
Qed.
Lemma tidy_spec items args : @content_parse ablock (content_to_string (map (tidy_item tidy) items)) args = content_parse (content_to_string items) args.
Proof.
  destruct items as [|i0 items0]; [reflexivity|]. unfold content_parse. rewrite !content_to_string_join. change CH_SPACE with 32. rewrite !split_items by discriminate. revert args. generalize (i0 :: items0). clear.
  induction l as [|i l IH]; intros args; [reflexivity|]. cbn [map flat_map].
  destruct i as [t|[[[|c n]|] v|[[|c n]|] v|[[|c n]|] v|n v]]; cbn [tidy_item tidy_name]; try (apply (items_parse_more (split_on 32 _)); exact IH).
  - apply (items_parse_same (lit "%s") (lit "%s.")); [reflexivity|reflexivity|intros; reflexivity|exact IH].
  - apply (items_parse_same (lit "%d") (lit "%d.")); [reflexivity|reflexivity|intros; reflexivity|exact IH].
  - apply (items_parse_same (lit "%b") (lit "%b.")); [reflexivity|reflexivity|intros; reflexivity|exact IH].
Qed.
(** *** Writing *)
Definition like_conv (b : ablock) : Prop := forall c last bs c', convert_block b c last = Ok (bs, c') -> exists bs', convert_block (tidy b) c last = Ok (bs', c') /\ Forall2 like bs bs'.
Lemma like_value {T} (g : T -> str) (v : arg_value ablock T) c p bs c' : value_all like_conv v -> conv_value convert_block g v c = Ok (p, bs, c') ->
  exists bs', conv_value convert_block g (value_map tidy v) c = Ok (p, bs', c') /\ Forall2 like bs bs'.
Proof.
  destruct v as [t|b|k|]; cbn [value_all value_map conv_value]; intros Q H; try discriminate; try (exists bs; split; [exact H|apply likes_refl]).
  apply bind_ok in H as ([x c1] & H & [= <- <- <-]). apply Q in H as (x' & H & F). exists x'. rewrite H. auto.
Qed.
Lemma like_arg a c p bs c' : item_all like_conv (SParam a) -> conv_arg convert_block a c = Ok (p, bs, c') ->
  exists b bs', tidy_item tidy (SParam a) = SParam b /\ conv_arg convert_block b c = Ok (p, bs', c') /\ Forall2 like bs bs'.
Proof.
  destruct a as [n v|n v|n v|n v]; cbn [item_all conv_arg tidy_item]; intros Q H.
  - destruct (like_value _ v _ _ _ _ Q H) as (bs' & E & F). do 2 eexists. split; [reflexivity|]. split; [exact E|exact F].
  - destruct (like_value _ v _ _ _ _ Q H) as (bs' & E & F). do 2 eexists. split; [reflexivity|]. split; [exact E|exact F].
  - destruct v as [t|b|k|]; try discriminate.
    + do 2 eexists. split; [reflexivity|]. split; [exact H|apply likes_refl].
    + destruct (like_value _ (ABlock b) _ _ _ _ Q H) as (bs' & E & F). do 2 eexists. split; [reflexivity|]. split; [exact E|exact F].
    + do 2 eexists. split; [reflexivity|]. split; [exact H|apply likes_refl].
  - destruct (like_value _ v _ _ _ _ Q H) as (bs' & E & F). do 2 eexists. split; [reflexivity|]. split; [exact E|exact F].
Qed.
Lemma like_args items : items_all like_conv items -> forall c ps bs c', conv_args convert_block items c = Ok (ps, bs, c') ->
  exists bs', conv_args convert_block (map (tidy_item tidy) items) c = Ok (ps, bs', c') /\ Forall2 like bs bs'.
Proof.
  induction items as [|[t|a] items IH]; cbn [items_all map conv_args]; intros Q c ps bs c' H.
  - exists bs. split; [exact H|apply likes_refl].
  - apply IH; [apply Q|exact H].
  - destruct Q as [Qa Q]. apply bind_ok in H as ([[p x] c1] & Ha & H). apply bind_ok in H as ([[ps' y] c2] & H & [= <- <- <-]).
    destruct (like_arg _ _ _ _ _ Qa Ha) as (b & x' & Eb & Ea & Fx). destruct (IH Q _ _ _ _ H) as (y' & Ey & Fy). rewrite Eb. exists (x' ++ y'). cbn [conv_args]. rewrite Ea. cbn [bind]. rewrite Ey. cbn [bind].
    split; [reflexivity|]. now apply likes_app.
Qed.
Lemma like_stack l : stack_all like_conv l -> forall c bs c', conv_stack convert_block l c = Ok (bs, c') ->
  exists bs', conv_stack convert_block (map tidy l) c = Ok (bs', c') /\ Forall2 like bs bs'.
Proof.
  induction l as [|b l IH]; cbn [stack_all map conv_stack]; intros Q c bs c' H; [exists bs; split; [exact H|apply likes_refl]|]. destruct Q as [Qb Q].
  apply bind_ok in H as ([x c1] & H1 & H). apply bind_ok in H as ([y c2] & H2 & [= <- <-]). destruct (Qb _ _ _ _ H1) as (x' & Ex & Fx). destruct (IH Q _ _ _ H2) as (y' & Ey & Fy).
  exists (x' ++ y'). replace (match map tidy l with [] => true | _ => false end) with (match l with [] => true | _ => false end) by (destruct l; reflexivity). rewrite Ex. cbn [bind]. rewrite Ey. cbn [bind]. split; [reflexivity|now apply likes_app].
Qed.
Lemma like_sub s c z bs c' : sub_all like_conv s -> conv_sub convert_block s c = Ok (z, bs, c') -> exists bs', conv_sub convert_block (option_map (map tidy) s) c = Ok (z, bs', c') /\ Forall2 like bs bs'.
Proof.
  destruct s as [l|]; cbn [sub_all option_map conv_sub]; intros Q H; [|exists bs; split; [exact H|apply likes_refl]].
  apply bind_ok in H as ([x c1] & H & H1). apply bind_ok in H1 as (z1 & Hz & [= <- <- <-]). destruct (like_stack l Q _ _ _ H) as (x' & Ex & Fx). exists x'. rewrite Ex. cbn [bind].
  rewrite last_id_ids, (likes_ids _ _ Fx), <- last_id_ids, Hz. cbn [bind]. auto.
Qed.
Lemma tidy_conv b : like_conv b.
Proof.
  induction b as [s1 s2 col op items ty Q1 Q2 Q] using ablock_induct. intros c last bs c' H. cbn [tidy convert_block] in *.
  apply bind_ok in H as ([[ps ba] c1] & Ha & H). apply bind_ok in H as ([[z1 b1] c2] & H1 & H). apply bind_ok in H as ([[z2 b2] c3] & H2 & [= <- <-]).
  destruct (like_args items Q _ _ _ _ Ha) as (ba' & Ea & Fa). destruct (like_sub s1 _ _ _ _ Q1 H1) as (b1' & E1 & F1). destruct (like_sub s2 _ _ _ _ Q2 H2) as (b2' & E2 & F2).
  rewrite Ea. cbn [bind]. rewrite E1. cbn [bind]. rewrite E2. cbn [bind]. eexists. split; [reflexivity|]. constructor; [|apply likes_app; [exact Fa|apply likes_app; [exact F1|exact F2]]].
  assert (TX : forall l : list (spec_item ablock), content_to_string (fst (take_args l)) = content_to_string l) by (intros l; rewrite !content_to_string_join, map_item_spec; reflexivity).
  repeat (split; [reflexivity|]). intros args. cbn [bl_spec]. pose proof (tidy_spec items args) as X. rewrite <- (TX items), <- (TX (map (tidy_item tidy) items)) in X. exact X.
Qed.
Lemma tidy_into l c : blocks_into l = Ok c -> exists c', blocks_into (map tidy l) = Ok c' /\ Forall2 like c c'.
Proof.
  unfold blocks_into, to_block_container, rmap. intros H. apply bind_ok in H as ([x c1] & H & [= <-]). destruct (like_stack l (stack_all_intro _ _ tidy_conv) _ _ _ H) as (x' & E & F). exists x'. rewrite E. auto.
Qed.
(** *** Reading *)
Lemma like_graph c c' id x : Forall2 like c c' -> graph c id x -> exists y, graph c' id y /\ like x y.
Proof.
  intros F (a & r & -> & P & L). apply Forall2_app_inv_l in F as (a' & q & Fa & F & ->). inversion F as [|? y ? r' Hy Fr]; subst. exists y. split; [|exact Hy]. exists a', r'. split; [reflexivity|]. split; [destruct Hy as (_ & -> & _); exact P|].
  clear - L Fr. induction Fr as [|x y r r' H F IH]; [constructor|]. apply Forall_cons_iff in L as [L1 L]. constructor; [|auto]. destruct H as (_ & -> & _). exact L1.
Qed.
Lemma like_start c c' id : Forall2 like c c' -> start c id -> start c' id.
Proof.
  intros F (a & x & r & -> & P & L & O). apply Forall2_app_inv_l in F as (a' & q & Fa & F & ->). inversion F as [|? y ? r' Hy Fr]; subst. exists a', y, r'. split; [reflexivity|].
  assert (Ey : bl_id y = bl_id x) by apply Hy. split; [rewrite Ey; exact P|]. split.
  - clear - L Fr. induction Fr as [|x y r r' H F IH]; [constructor|]. apply Forall_cons_iff in L as [L1 L]. constructor; [|auto]. destruct H as (_ & -> & _). exact L1.
  - intros a1 z a2 ->. apply Forall2_app_inv_r in Fa as (b1 & q & F1 & F2 & ->). inversion F2 as [|w ? b2 ? Hw F3]; subst. destruct (O b1 w b2 eq_refl) as (v & I & E).
    assert (K : Forall2 like (b2 ++ x :: r) (a2 ++ y :: r')) by (apply likes_app; [exact F3|constructor; auto]).
    assert (J : In (bl_id v) (map bl_id (a2 ++ y :: r'))) by (rewrite (likes_ids _ _ K); now apply in_map). apply in_map_iff in J as (v' & Ev & J). exists v'. split; [exact J|]. rewrite Ev, E. destruct Hw as (_ & -> & _). reflexivity.
Qed.
Lemma like_reads (G G' : N -> block -> Prop) : (forall id x, G id x -> exists y, G' id y /\ like x y) ->
  (forall id b u, reads_block G id b u -> reads_block G' id b u) /\
  (forall z s u, reads_sub G z s u -> reads_sub G' z s u) /\
  (forall id l u, reads_stack G id l u -> reads_stack G' id l u) /\
  (forall h i u, reads_items G h i u -> reads_items G' h i u) /\
  (forall a b u, reads_arg G a b u -> reads_arg G' a b u).
Proof.
  intros H. apply (reads_ind G (fun id b u _ => reads_block G' id b u) (fun z s u _ => reads_sub G' z s u)
    (fun id l u _ => reads_stack G' id l u) (fun h i u _ => reads_items G' h i u) (fun a b u _ => reads_arg G' a b u)).
  1: { intros id pb ws holes s1 u1 s2 u2 items u3 ty Eg _ R1 _ R2 Wd Gv _ R3 T. destruct (H _ _ Eg) as (y & Ey & L). destruct L as (L1 & _ & _ & L4 & L5 & L6 & L7 & L8 & L9 & Ls).
    rewrite <- L1, <- L4. apply words_split in Wd. subst ws. apply items_parse_iff in Gv. eapply (rd_block G' id y (split_on CH_SPACE (bl_spec y)) holes s1 u1 s2 u2 items u3 ty); auto.
    - rewrite L6. exact R1.
    - rewrite L7. exact R2.
    - now apply words_split.
    - apply items_parse_iff. change (content_parse (bl_spec y) (bl_parameters y) = Ok holes). rewrite Ls, L5. exact Gv.
    - rewrite L8, L9. exact T. }
  3: { intros id pb b u Eg Hn _ R. destruct (H _ _ Eg) as (y & Ey & L). eapply rd_last; eauto. destruct L as (_ & _ & -> & _). exact Hn. }
  3: { intros id pb b u l v Eg Hn _ R _ Rs. destruct (H _ _ Eg) as (y & Ey & L). assert (E : bl_next_block y = bl_next_block pb) by apply L. eapply rd_next; eauto; rewrite E; auto. }
  all: intros; try (econstructor; eauto; fail).
Qed.
Lemma like_container c c' t u : Forall2 like c c' -> reads_container c t u -> reads_container c' t u.
Proof.
  intros F [P R]. split.
  - clear R. induction F as [|x y c c' H F IH]; [constructor|]. apply Forall_cons_iff in P as [P1 P]. constructor; [|auto]. destruct H as (_ & -> & _). exact P1.
  - destruct R as [(-> & -> & ->)|(id & S & R)]; [left; inversion F; auto|]. right. exists id. split; [eapply like_start; eauto|]. eapply like_reads; [|exact R]. intros k x. now apply like_graph.
Qed.
Lemma like_try c c' t : Forall2 like c c' -> (blocks_try_from c = Ok t <-> blocks_try_from c' = Ok t).
Proof.
  intros F. rewrite !try_from_iff. split; intros (u & R & N1); exists u; (split; [|exact N1]); [eapply like_container; eauto|]. apply likes_sym in F. eapply like_container; eauto.
Qed.
Theorem tidy_reads l c : blocks_into l = Ok c -> exists c', blocks_into (map tidy l) = Ok c' /\ length c' = length c /\ forall t, blocks_try_from c = Ok t <-> blocks_try_from c' = Ok t.
Proof.
  intros H. destruct (tidy_into l c H) as (c' & E & F). exists c'. split; [exact E|]. split; [rewrite <- (map_length bl_id c'), (likes_ids _ _ F); apply map_length|]. intros t. now apply like_try.
Qed.

(** ** Which blocks are read again *)
Lemma stack_last_tidy l : stack_all (fun b => last_block (tidy b) = tidy (last_block b)) l -> stack_last last_block (map tidy l) = option_map tidy (stack_last last_block l).
Proof. induction l as [|b l IH]; cbn [stack_all map stack_last]; [reflexivity|]. intros [H1 H]. rewrite (IH H), H1. destruct (stack_last last_block l); reflexivity. Qed.
Lemma sub_last_tidy s : sub_all (fun b => last_block (tidy b) = tidy (last_block b)) s -> sub_last last_block (option_map (map tidy) s) = option_map tidy (sub_last last_block s).
Proof. destruct s as [l|]; cbn [sub_all option_map sub_last]; [|reflexivity]. apply stack_last_tidy. Qed.
Lemma boolean_tidy t : tidy (boolean_block t) = boolean_block t.
Proof. destruct t; reflexivity. Qed.
Lemma items_last_tidy items : items_all (fun b => last_block (tidy b) = tidy (last_block b)) items ->
  items_last last_block (map (tidy_item tidy) items) = option_map tidy (items_last last_block items).
Proof.
  induction items as [|i items IH]; cbn [items_all map]; [reflexivity|]. intros [Hi H]. cbn [items_last]. rewrite (IH H).
  assert (E : item_last last_block (tidy_item tidy i) = option_map tidy (item_last last_block i)).
  { destruct i as [t|[n v|n v|n v|n v]]; cbn [tidy_item item_all] in *; [reflexivity|..]; destruct v; cbn [value_map value_all item_last value_last option_map] in *; rewrite ?boolean_tidy; congruence. }
  rewrite E. destruct (items_last last_block items), (item_last last_block i); reflexivity.
Qed.
Lemma last_tidy b : last_block (tidy b) = tidy (last_block b).
Proof.
  induction b as [s1 s2 col op items ty Q1 Q2 Q] using ablock_induct. rewrite !last_block_below. unfold below. cbn [tidy ab_sub_stack1 ab_sub_stack2 ab_content].
  rewrite !sub_last_tidy, items_last_tidy by auto. destruct (sub_last last_block s2), (sub_last last_block s1), (items_last last_block items); reflexivity.
Qed.
Lemma read_again_tidy b : read_again (tidy b) = map tidy (read_again b).
Proof.
  destruct b as [s1 s2 col op items ty]. unfold read_again. cbn [tidy ab_sub_stack1 ab_sub_stack2 ab_content map]. rewrite !map_app, !sub_last_tidy by apply sub_all_intro, last_tidy.
  f_equal. f_equal; [destruct (sub_last last_block s1); reflexivity|]. f_equal; [destruct (sub_last last_block s2); reflexivity|].
  induction items as [|i items IH]; [reflexivity|]. cbn [map flat_map]. rewrite map_app, IH. f_equal.
  destruct i as [t|[n v|n v|n v|n v]]; cbn [tidy_item]; [reflexivity|..]; destruct v; cbn [value_map item_read map]; rewrite ?last_tidy; reflexivity.
Qed.
Lemma words_again b : read_again (tidy (spread b)) = map (fun y => tidy (spread y)) (read_again b).
Proof. now rewrite read_again_tidy, read_again_spread, map_map. Qed.
Theorem said_iff l c : blocks_into l = Ok c -> 9 + N.of_nat (length c) < 2 ^ 31 -> Forall (fun b => Forall block_free (read_again b)) l ->
  forall l', blocks_try_from c = Ok l' <-> Forall (fun b => Forall block_said (read_again b)) l /\ l' = map (fun b => block_back (tidy (spread b))) l.
Proof.
  intros H L P l'. rewrite <- spread_into in H. destruct (tidy_reads _ _ H) as (c' & H' & Ln & E). rewrite E, map_map in *. rewrite <- Ln in L.
  assert (P' : Forall (fun b => Forall block_semi (read_again b)) (map (fun b => tidy (spread b)) l)).
  { apply Forall_map. eapply Forall_impl; [|exact P]. intros b F. rewrite words_again. apply Forall_map. eapply Forall_impl; [|exact F]. apply semi_tidy. }
  rewrite (semi_iff _ _ H' L P'), map_map.
  enough (X : Forall (fun b => Forall block_good (read_again b)) (map (fun b => tidy (spread b)) l) <-> Forall (fun b => Forall block_said (read_again b)) l) by (rewrite X; tauto).
  rewrite Forall_map. split; intros K; (eapply Forall_impl; [|exact K]); intros b; cbv beta; rewrite words_again, Forall_map; apply Forall_impl; intros y; apply good_tidy.
Qed.
