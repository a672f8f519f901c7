(** Proofs about blocks whose words cannot make the reader panic ([SpecCalm.v]). *)
From Verif Require Import Base Str M_Color M_Logic M_Parsed A_Block A_View A_Screen A_Project SpecBlock SpecScreen SpecProject SpecSave BlockContentProofs BlockWriteProofs BackProofs ScreenProofs ApiProjectProofs SaveProofs
  RemainProofs P_Block P_Logic P_Parsed P_ApiProject P_Loading P_Save SpecLoad SpecBack SpecSettle SpecSpread SpreadProofs SpecResave SettleSaveProofs SpecCalm.

(** ** The words of a spec *)
Lemma item_nospace (i : spec_item ablock) : Forall (fun w => ~ In 32 w) (map item_spec (spread_item spread i)).
Proof.
  assert (S : forall l, map (@item_spec ablock) (map SText l) = l) by (intros l; rewrite map_map; apply map_id).
  assert (Q : forall p x, ~ In 32 p -> ~ In 32 (p ++ first_part x)) by (intros p x P; rewrite in_app_iff; pose proof (first_nospace x); tauto).
  destruct i as [t|[n v|n v|n v|n v]]; cbn [spread_item map]; rewrite ?S.
  - apply parts_nospace.
  - destruct n as [x|]; cbn [option_map item_spec arg_spec map]; rewrite ?S; (constructor; [|try apply others_nospace; constructor]); [apply (Q (lit "%s.") x)|]; vm_compute; intuition discriminate.
  - destruct n as [x|]; cbn [option_map item_spec arg_spec map]; rewrite ?S; (constructor; [|try apply others_nospace; constructor]); [apply (Q (lit "%d.") x)|]; vm_compute; intuition discriminate.
  - destruct n as [x|]; cbn [option_map item_spec arg_spec map]; rewrite ?S; (constructor; [|try apply others_nospace; constructor]); [apply (Q (lit "%b.") x)|]; vm_compute; intuition discriminate.
  - cbn [item_spec arg_spec]. constructor; [|apply others_nospace]. apply (Q (lit "%m.") n). vm_compute; intuition discriminate.
Qed.
Lemma plain_letter c r : c < 0x800 -> c <> 109 -> ~ bad_word (37 :: c :: r).
Proof.
  intros L M [B|[(x & B & _)|(d & x & B & D)]]; [discriminate|injection B as -> _; congruence|]. injection B as -> _. lia.
Qed.
Lemma menu_letter n : bad_word (lit "%m." ++ n) <-> n = [].
Proof.
  change (lit "%m." ++ n) with (37 :: 109 :: 46 :: n). split.
  - intros [B|[(x & B & K)|(d & x & B & D)]]; [discriminate| |injection B as <- _; lia]. injection B as <-. destruct n as [|c n]; [reflexivity|]. elim (K (c :: n)); [discriminate|reflexivity].
  - intros ->. right. left. exists [46]. split; [reflexivity|]. intros n N [= E]. auto.
Qed.
Lemma item_calm_words i : calm_words (map item_spec (spread_item spread i)) <-> item_calm i.
Proof.
  assert (S : forall l, map (@item_spec ablock) (map SText l) = l) by (intros l; rewrite map_map; apply map_id).
  unfold calm_words. destruct i as [t|[n v|n v|n v|n v]]; cbn [spread_item map item_calm arg_name]; rewrite ?S; [reflexivity|..].
  1-3: destruct n as [x|]; cbn [option_map item_spec arg_spec map]; rewrite ?S, Forall_cons_iff; (split; [intros [_ H]; auto|]); intros H; (split; [|auto]); apply plain_letter; vm_compute; congruence.
  cbn [item_spec arg_spec]. rewrite Forall_cons_iff. change (_ ++ _ :: first_part n) with (lit "%m." ++ first_part n). now rewrite menu_letter.
Qed.
Lemma spec_words items : items <> [] -> split_on 32 (content_to_string items) = map item_spec (flat_map (spread_item spread) items).
Proof.
  intros N. rewrite <- (spread_text spread items), content_to_string_join. apply split_join.
  - intros E. apply map_eq_nil in E. revert E. now apply spread_spec_nonempty.
  - clear N. induction items as [|i items IH]; [constructor|]. cbn [flat_map]. rewrite map_app. apply Forall_app. split; [apply item_nospace|exact IH].
Qed.
Lemma calm_iff items : items_calm items <-> forall ws t, words (content_to_string items) ws -> In t ws -> ~ bad_word t.
Proof.
  transitivity (calm_words (split_on 32 (content_to_string items))).
  - destruct items as [|i items]; [split; intros _; [|constructor]|].
    + constructor; [|constructor]. intros [B|[(r & B & _)|(c & r & B & _)]]; discriminate.
    + rewrite spec_words by discriminate. generalize (i :: items). clear. intros l. induction l as [|i l IH]; [split; constructor|]. cbn [flat_map]. rewrite map_app. unfold items_calm, calm_words in *.
      rewrite Forall_cons_iff, Forall_app, IH. rewrite <- item_calm_words. reflexivity.
  - unfold calm_words. rewrite Forall_forall. split.
    + intros H ws t W I. apply words_split in W. subst ws. now apply H.
    + intros H t I. eapply H; [|exact I]. now apply words_split.
Qed.

(** ** The specs of a container *)
Section Specs.
  Context (Q : str -> Prop) (Qt : forall v, Q (bool_to_string v)).
  Definition says (pb : block) : Prop := Q (bl_spec pb).
  Definition spoken (b : ablock) : Prop := Q (content_to_string (ab_content b)).
  Definition conv_says (b : ablock) : Prop := forall c last bs c', convert_block b c last = Ok (bs, c') -> everywhere spoken b -> Forall says bs.
  Lemma spec_same (items : list (spec_item ablock)) : content_to_string (fst (take_args items)) = content_to_string items.
  Proof. rewrite !content_to_string_join, map_item_spec. reflexivity. Qed.
  Lemma stack_says l : stack_all conv_says l -> forall c bs c', conv_stack convert_block l c = Ok (bs, c') -> stack_all (everywhere spoken) l -> Forall says bs.
  Proof.
    induction l as [|b l IH]; cbn [stack_all conv_stack]; intros P c bs c' H E; [injection H as <- <-; constructor|]. destruct P as [P1 P], E as [E1 E].
    apply bind_ok in H as ([x c1] & H1 & H). apply bind_ok in H as ([y c2] & H2 & [= <- <-]). apply Forall_app. split; [eapply P1; eauto|eapply IH; eauto].
  Qed.
  Lemma value_says {T} (f : T -> str) (v : arg_value ablock T) c p bs c' : value_all conv_says v -> conv_value convert_block f v c = Ok (p, bs, c') -> value_all (everywhere spoken) v -> Forall says bs.
  Proof.
    destruct v as [t|b|i|]; cbn [value_all conv_value]; intros P H E; try discriminate; try (injection H as <- <- <-; constructor).
    apply bind_ok in H as ([bs0 c0] & H & [= <- <- <-]). eapply P; eauto.
  Qed.
  Lemma sub_says s c z bs c' : sub_all conv_says s -> sub_ptr s c z bs c' -> sub_all (everywhere spoken) s -> Forall says bs.
  Proof.
    destruct s as [[|b l]|]; cbn [sub_all sub_ptr]; intros P H E.
    - destruct H as (-> & -> & ->). constructor.
    - destruct H as (-> & _ & H). now apply (stack_says (b :: l) P _ _ _ H).
    - destruct H as (-> & -> & ->). constructor.
  Qed.
  Lemma all_says b : conv_says b.
  Proof.
    induction b as [s1 s2 col op items ty Q1 Q2 P] using ablock_induct. intros c last bs c' H E. apply convert_block_inv in H as (ps & ba & c1 & z1 & b1 & c2 & z2 & b2 & Ha & H1 & H2 & ->).
    cbn [ab_content ab_sub_stack1 ab_sub_stack2] in *. cbn [everywhere] in E. destruct E as (E0 & Ei & E1 & E2).
    constructor; [unfold says; cbn [raw bl_spec ab_content]; rewrite spec_same; exact E0|]. rewrite !Forall_app. split; [|split; [exact (sub_says _ _ _ _ _ Q1 H1 E1)|exact (sub_says _ _ _ _ _ Q2 H2 E2)]].
    clear - P Ha Ei Qt. revert ps ba c1 Ha. generalize (c + 1). induction items as [|[t|a] items IH]; cbn [items_all conv_args] in *; intros c0 ps ba c1 Ha.
    - injection Ha as <- <- <-. constructor.
    - destruct P as [_ P], Ei as [_ Ei]. eapply IH; eauto.
    - destruct P as [Pa P], Ei as [Ea Ei]. apply bind_ok in Ha as ([[p x] c2] & Ha & H). apply bind_ok in H as ([[ps' y] c3] & H & [= <- <- <-]). apply Forall_app. split; [|eapply IH; eauto].
      destruct a as [n v|n v|n v|n v]; cbn [item_all conv_arg] in *; try (eapply value_says; eauto; fail).
      destruct v as [t|b|i|]; [|eapply value_says; eauto; fail..]. injection Ha as <- <- <-. constructor; [exact (Qt t)|constructor].
  Qed.
  Lemma into_says l c : blocks_into l = Ok c -> Forall (everywhere spoken) l -> Forall says c.
  Proof.
    intros H E. apply into_stack in H. eapply (stack_says l); [apply stack_all_intro, all_says|exact H|]. clear H. induction E; cbn [stack_all]; auto.
  Qed.
End Specs.
Definition quiet (s : str) : Prop := forall ws t, words s ws -> In t ws -> ~ bad_word t.
Lemma quiet_bool v : quiet (bool_to_string v).
Proof.
  intros ws t W I. apply words_split in W. subst ws. destruct v; destruct I as [<-|[]]; intros [B|[(r & B & _)|(c & r & B & _)]]; discriminate.
Qed.
Lemma calm_quiet l : code_calm l -> Forall (everywhere (spoken quiet)) l.
Proof.
  assert (M : forall b, everywhere block_calm b -> everywhere (spoken quiet) b).
  { intros b. induction b as [s1 s2 col op items ty Q1 Q2 P] using ablock_induct. cbn [everywhere]. intros (E0 & Ei & E1 & E2). split; [|split; [|split]].
    - unfold spoken, quiet. cbn [ab_content]. now apply calm_iff.
    - clear - P Ei. induction items as [|i items IH]; cbn [items_all] in *; [exact I|]. destruct P, Ei. split; [|auto]. destruct i as [t|[n v|n v|n v|n v]]; cbn [item_all] in *; auto; destruct v; cbn [value_all] in *; auto.
    - destruct s1 as [l0|]; cbn [sub_all] in *; auto. clear - Q1 E1. induction l0 as [|b l0 IH]; cbn [stack_all] in *; [exact I|]. destruct Q1, E1. auto.
    - destruct s2 as [l0|]; cbn [sub_all] in *; auto. clear - Q2 E2. induction l0 as [|b l0 IH]; cbn [stack_all] in *; [exact I|]. destruct Q2, E2. auto. }
  apply Forall_impl, M.
Qed.
Lemma code_calm_safe l c : code_calm l -> blocks_into l = Ok c -> blocks_try_from c <> Panic.
Proof.
  intros K H. apply C24_blocks_partial. intros pb ws t I W It. pose proof (into_says quiet quiet_bool l c H (calm_quiet l K)) as F. rewrite Forall_forall in F. exact (F pb I ws t W It).
Qed.

(** ** Screens and projects *)
Lemma calm_logic s lg : screen_calm s -> screen_logic_of s = Ok lg -> safe_logic lg /\ safe_logic (without_containers lg).
Proof.
  intros [K M] H. apply screen_logic_iff in H as (cs & W & ->). rewrite <- cells_codes in K. rewrite Forall_map in K. rewrite Forall_forall in M, K.
  assert (SM : forall id mb, In (id, mb) (scollect (raw_more_blocks (sc_more_blocks s))) -> @parse_wo_params ablock (mb_spec mb) <> Panic).
  { intros id mb I E. apply in_scollect in I. unfold raw_more_blocks in I. apply in_map_iff in I as (kv & Ek & I). injection Ek as _ <-. specialize (M kv I).
    destruct (C24_spec_partial _ [] (or_introl E)) as (ws & t & Wd & It & B). revert B. eapply (proj1 (calm_iff (am_spec (snd kv))) M); [exact Wd|exact It]. }
  split; (split; cbn [logic_with without_containers sl_block_containers sl_more_blocks or_empty]; [|exact SM]); [|intros k c []].
  intros k c I. apply in_ins_all, (in_kbc _ _ _ _ W) in I as (y & I & _ & Wr). eapply code_calm_safe; [exact (K y I)|exact Wr].
Qed.
Lemma put_from l : forall lgs lays fabs lgs' lays' fabs', put_screens l lgs lays fabs = Ok (lgs', lays', fabs') ->
  forall k lg, sget k lgs' = Some lg -> sget k lgs = Some lg \/ exists s, In s l /\ screen_logic_of s = Ok lg.
Proof.
  induction l as [|s l IH]; intros lgs lays fabs lgs' lays' fabs' H k lg G; rewrite put_screens_eq in H.
  - injection H as <- _ _. now left.
  - apply bind_ok in H as (lg0 & L & H). destruct (IH _ _ _ _ _ _ H k lg G) as [X|(x & I & X)]; [|right; exists x; split; [now right|exact X]].
    destruct (list_eq_dec N.eq_dec k (sc_java_name s)) as [->|Ne].
    + rewrite sget_insert_same in X. injection X as <-. right. exists s. split; [now left|exact L].
    + rewrite sget_insert_other in X by exact Ne. now left.
Qed.
Lemma calm_memory rnd p q : Forall screen_calm (sp_screens p) -> project_into p = Ok q -> project_try_from rnd q <> Panic.
Proof.
  intros K H. apply into_inv in H as (lays & imf & sof & fof & S & _). apply project_safe. intros k le G. destruct (put_from _ _ _ _ _ _ _ S k le G) as [X|(s & I & L)]; [discriminate|].
  rewrite Forall_forall in K. exact (proj1 (calm_logic s le (K s I) L)).
Qed.
Lemma calm_files mv ex rnd p q dt r v : Forall screen_calm (sp_screens p) -> filed_project p -> project_fits p dt -> project_into p = Ok q -> into_raw q r -> parse_from mv ex r = Ok v -> project_try_from rnd v <> Panic.
Proof.
  intros PS FP PF H W K. destruct (filed_reads mv p q dt FP PF H) as (a & b & g & AB & CA & CB & G & GS & GN).
  destruct (raw_logic q r W) as [_ RL]. apply parse_from_ok in K as (_ & _ & _ & _ & _ & K6 & _). rewrite RL, G in K6. injection K6 as ->. rewrite AB in PS. rewrite Forall_forall in PS.
  apply project_safe. intros k le E. destruct (in_dec (list_eq_dec N.eq_dec) k (map sc_java_name (a ++ b))) as [I|I]; [|now rewrite (proj1 (GN k I)) in E].
  apply in_map_iff in I as (s & <- & I). destruct (GS s I) as (lg & L & _ & X1 & X2). destruct (calm_logic s lg (PS s I) L) as [S1 S2]. apply in_app_or in I as [I|I].
  - rewrite (X1 I) in E. injection E as <-. exact S1.
  - rewrite (X2 I) in E. injection E as <-. exact S2.
Qed.
