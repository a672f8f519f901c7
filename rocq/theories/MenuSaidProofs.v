(** Proofs about which block trees can be read again at all, with blocks in the place of menus. *)
From Verif Require Import Base Str Dec Flt M_Logic A_Block SpecBlock BlockContentProofs BlockProofs BlockReadProofs BlockWriteProofs BlockTripProofs BlockFailProofs BackProofs SpreadProofs
  P_BlockError SpecBack SpecSettle SpecSpread SpecSaid SaidProofs SpecMenu MenuProofs.
From Coq Require Import Lia.

(** ** Trees of words *)
(** [semi] with any menus *)
Definition wide (i : spec_item ablock) : Prop := match i with SParam (ArgMenu n (ABlock _)) => ~ In 32 n | _ => semi i end.
Definition block_wide (b : ablock) : Prop := Forall wide (ab_content b).
Lemma wide_cases (a : argument ablock) : wide (SParam a) -> semi (SParam a) \/ exists n b, a = ArgMenu n (ABlock b) /\ ~ In 32 n.
Proof. destruct a as [n v|n v|n v|n v]; auto. destruct v as [t|b|k|]; auto. intros H. right. now exists n, b. Qed.
Lemma wide_good i : wide i -> good i -> item_fair i /\ item_given i.
Proof.
  destruct i as [t|a]; [apply semi_good|]. intros W K. destruct (wide_cases a W) as [S|(n & b & -> & Nm)].
  - destruct (semi_good _ S K) as [P Gv]. split; [|exact Gv]. destruct a as [n v|n v|n v|n v]; auto. destruct v; auto. destruct P as [_ []].
  - cbn in *. auto.
Qed.
Lemma wides_good l : Forall wide l -> Forall good l -> Forall item_fair l /\ Forall item_given l.
Proof. induction 1 as [|i l S F IH]; intros K; [split; constructor|]. apply Forall_cons_iff in K as [Ki K]. destruct (IH K), (wide_good i S Ki). split; constructor; auto. Qed.
Lemma menu_good n (v : arg_value ablock str) p ts ps (hs : list (spec_item ablock)) : gives (arg_spec (ArgMenu n v) :: ts) (p :: ps) hs -> n <> [].
Proof.
  intros Gv ->. cbn [arg_spec] in Gv. inversion Gv as [|? ? ? ? P|? ? ? ? ? ? ? P Rv|? ? ? ? ? ? ? P Rv|? ? ? ? ? ? ? P Rv|? ? ? ? ? ? P]; subst; try (destruct P as (q' & P & P'); try discriminate).
  - apply P. now eexists.
  - injection P as <-. destruct P' as [P1 P2]. injection P2 as <-. now apply P1.
Qed.
Lemma gives_wide items : Forall wide items -> forall c ps bs c' (holes : list (spec_item ablock)), conv_args convert_block items c = Ok (ps, bs, c') ->
  gives (map item_spec items) ps holes -> Forall good items.
Proof.
  induction 1 as [|[t|a] items Si F IH]; cbn [conv_args map item_spec]; intros c ps bs c' holes H Gv; [constructor|..].
  - assert (NP : ~ is_param t).
    { intros [r ->]. apply gives_count in Gv. apply conv_count in H. rewrite count_params_cons in Gv. change (starts_with [CH_PERCENT] (37 :: r)) with true in Gv. exact (Nat.nle_succ_diag_l _ (Nat.le_trans _ _ _ Gv H)). }
    constructor; [exact NP|]. inversion Gv as [|t' ts args is P Gv'|? ? ? ? ? ? ? P|? ? ? ? ? ? ? P|? ? ? ? ? ? ? P|? ? ? ? ? ? P]; subst; [eapply IH; eauto|..];
      destruct NP; destruct P as (r & -> & _); now eexists.
  - apply bind_ok in H as ([[p x] c1] & Ha & H). apply bind_ok in H as ([[ps' y] c2] & H & [= <- _ _]).
    destruct (gives_tail a _ _ _ _ (semi_param a) Gv) as (h & hs & -> & Gv'). constructor; [|eapply IH; eauto].
    destruct (wide_cases a Si) as [S|(n & b & -> & Nm)]; [|eapply menu_good; exact Gv].
    assert (Hg : gives (map item_spec [SParam a]) [p] [SParam h]) by (cbn [map item_spec]; inversion Gv; subst; constructor; auto; constructor).
    refine (Forall_inv (gives_good [SParam a] (Forall_cons _ S (Forall_nil _)) c [p] x c1 [SParam h] _ Hg)).
    cbn [conv_args]. rewrite Ha. cbn [bind]. now rewrite app_nil_r.
Qed.

(** ** Reading *)
Lemma wide_spec i : wide i -> ~ In 32 (item_spec i).
Proof.
  destruct i as [t|a]; [apply semi_spec|]. intros W. destruct (wide_cases a W) as [S|(n & b & -> & Nm)]; [now apply semi_spec|].
  cbn [item_spec arg_spec]. intros [X|[X|[X|X]]]; try discriminate. auto.
Qed.
Lemma wide_words b id next ps z1 z2 : block_wide b -> forall ws, words (bl_spec (raw b id next ps z1 z2)) ws <-> ws = map item_spec (shown (ab_content b)).
Proof.
  intros F ws. cbn [raw bl_spec]. destruct (ab_content b) as [|i l] eqn:E; [rewrite words_split; reflexivity|].
  rewrite content_to_string_join, map_item_spec, words_split. change CH_SPACE with 32. rewrite split_join; [tauto|discriminate|].
  unfold block_wide in F. rewrite E in F. apply Forall_map. eapply Forall_impl; [|exact F]. apply wide_spec.
Qed.
Lemma wide_shown l : Forall wide l -> Forall wide (shown l).
Proof. destruct l; auto. intros _. constructor; [intros []|constructor]. Qed.
Lemma wide_childless y : childless y -> block_wide y -> block_semi y.
Proof.
  intros C F. apply childless_parts in C as (_ & _ & C). unfold block_wide, block_semi in *. revert C. induction F as [|i l Hi F IH]; cbn [items_last]; [constructor|].
  rewrite or_else_none. intros [C Ci]. constructor; auto. destruct i as [t|a]; [exact Hi|]. destruct (wide_cases a Hi) as [P|(n & b & -> & _)]; [exact P|]. discriminate.
Qed.
Lemma wide_trips (G : N -> block -> Prop) b : (forall id x y, G id x -> G id y -> x = y) -> Forall block_wide (read_again b) -> menu_trips G block_good b.
Proof.
  intros Gf F c last bs c' H E L. change (read_again b) with (b :: refs b) in *. apply Forall_cons_iff in F as [P F].
  assert (R : Forall (ref_ok block_good G) (refs b)).
  { eapply Forall_impl; [|exact F]. intros y W k pb C. apply (trips_ref G Gf block_good y); auto. apply semi_trips; auto. now apply wide_childless. }
  assert (A : Forall good (ab_content b) ->
    (block_given b /\ Forall block_good (refs b) -> exists u, reads_block G (c + 1) (block_back (numbered_menus c b)) u /\ within c u c') /\
    (forall x u, reads_block G (c + 1) x u -> x = block_back (numbered_menus c b) /\ block_given b /\ Forall block_good (refs b))).
  { intros K. destruct (wides_good _ P K) as [K1 K2]. exact (block_menu_reads G Gf block_good b c last bs c' K1 R H E L). }
  split.
  - intros K. apply Forall_cons_iff in K as [[T K] Kr]. destruct (A K) as [A1 _]. apply A1. split; [|exact Kr]. split; [exact T|]. now apply wides_good.
  - intros x u Rd.
    assert (K : Forall good (ab_content b)).
    { pose proof H as H'. apply convert_block_inv in H' as (ps & ba & c1 & z1 & b1 & c2 & z2 & b2 & Ha & H1 & H2 & ->). apply emb_head in E as [E0 E].
      inversion Rd as [id pb ws holes s1 u1 s2 u2 items u3 ty Eg R1 R2 Wd Gv R3 T]. subst id u x. rewrite (Gf _ _ _ Eg E0) in *. apply wide_words in Wd; auto. subst ws. cbn [raw bl_parameters] in Gv.
      rewrite <- conv_args_shown in Ha. apply good_shown. eapply gives_wide; [apply wide_shown; exact P|exact Ha|exact Gv]. }
    destruct (A K) as [_ A2]. destruct (A2 x u Rd) as (-> & [T _] & Kr). split; [reflexivity|]. apply Forall_cons_iff. split; [split; auto|exact Kr].
Qed.

(** ** From words to texts and names *)
Lemma wide_of_semi i : semi i -> wide i.
Proof. destruct i as [t|[n v|n v|n v|n v]]; auto. destruct v; auto. intros [N []]. Qed.
Lemma wide_item i : item_open i -> Forall wide (map (tidy_item tidy) (spread_item spread i)).
Proof.
  intros O. assert (X : item_free i \/ exists n b, i = SParam (ArgMenu n (ABlock b))).
  { destruct i as [t|[n v|n v|n v|n v]]; auto; destruct v; auto; cbn in *; auto. right. eauto. }
  destruct X as [X|(n & b & ->)]; [eapply Forall_impl; [apply wide_of_semi|now apply semi_item]|].
  pose proof (semi_item (SParam (ArgMenu n AEmpty)) I) as S. cbn [spread_item map tidy_item] in *. apply Forall_cons_iff in S as [S1 S2]. constructor.
  - apply S1.
  - eapply Forall_impl; [apply wide_of_semi|exact S2].
Qed.
Lemma wide_tidy b : block_open b -> block_wide (tidy (spread b)).
Proof.
  destruct b as [s1 s2 col op items ty]. unfold block_wide, block_open. cbn [spread tidy ab_content]. intros F. induction F as [|i items Fi F IH]; cbn [flat_map map]; [constructor|].
  rewrite map_app. apply Forall_app. split; [now apply wide_item|exact IH].
Qed.
Theorem open_iff l c : blocks_into l = Ok c -> 9 + N.of_nat (length c) < 2 ^ 31 -> Forall (fun b => Forall block_open (read_again b)) l ->
  forall l', blocks_try_from c = Ok l' <-> Forall (fun b => Forall block_said (read_again b)) l /\ l' = map block_back (stack_menus 9 (map (fun b => tidy (spread b)) l)).
Proof.
  intros H L P l'. rewrite <- spread_into in H. destruct (tidy_reads _ _ H) as (c' & H' & Ln & E). rewrite E, map_map in *. rewrite <- Ln in L.
  assert (P' : Forall (menu_trips (graph c') block_good) (map (fun b => tidy (spread b)) l)).
  { apply Forall_map. eapply Forall_impl; [|exact P]. intros b F. apply wide_trips; [apply graph_fun|]. rewrite words_again. apply Forall_map. eapply Forall_impl; [|exact F]. apply wide_tidy. }
  rewrite (menu_iff_by _ _ _ H' L P').
  enough (X : Forall (fun b => Forall block_good (read_again b)) (map (fun b => tidy (spread b)) l) <-> Forall (fun b => Forall block_said (read_again b)) l) by (rewrite X; tauto).
  rewrite Forall_map. split; intros K; (eapply Forall_impl; [|exact K]); intros b; cbv beta; rewrite words_again, Forall_map; apply Forall_impl; intros y; apply good_tidy.
Qed.
