(** Proofs about the code of projects that have been loaded. *)
From Verif Require Import Base Str M_Logic M_File M_View M_Parsed A_Block A_View A_Screen A_Project SpecBlock SpecView SpecScreen SpecProject BlockContentProofs ScreenProofs SaveProofs CleanProofs SpecSave SpecBack SpecSettle SpecResave.

Lemma parsed_spec spec is : @parse_wo_params ablock spec = Ok is -> is <> [] /\ Forall plain_item is.
Proof.
  unfold parse_wo_params. rewrite items_wo_iff. intros H. split. { intros ->. inversion H as [E|]. pose proof (split_on_nonnil CH_SPACE spec) as K. congruence. }
  pose proof (split_on_In CH_SPACE spec) as F. revert H F. generalize (split_on CH_SPACE spec). clear. intros ts H. induction H as [|t i ts is Hi His IH]; [constructor|].
  intros F. apply Forall_cons_iff in F as [F1 F]. constructor; auto. destruct i as [s|a]; cbn [tok_wo plain_item] in *.
  - destruct Hi as [-> Hi]. now split.
  - eapply param_wo_plain; eauto.
Qed.
Definition clean (l : blocks) : Prop := Forall (everywhere as_read) l.
Lemma take_events_clean l bc es : take_events l bc = Ok es -> Forall (fun e => clean (ae_code e)) es.
Proof.
  revert bc es. induction l as [|e l IH]; intros bc es; cbn [take_events]; [intros [= <-]; constructor|].
  destruct (event_try_from e) as [ev| |]; cbn [map_err bind]; try discriminate. unfold take_container.
  destruct (blocks_try_from _) as [code| |] eqn:B; cbn [map_err bind]; try discriminate. destruct (take_events l _) as [es'| |] eqn:T; cbn [bind]; try discriminate.
  intros [= <-]. constructor; [exact (read_clean _ _ B)|eauto].
Qed.
Lemma take_more_clean l bc ms bc' : take_more_blocks l bc = Ok (ms, bc') ->
  Forall (fun kv => (am_name (snd kv) = fst kv /\ am_spec (snd kv) <> [] /\ Forall plain_item (am_spec (snd kv))) /\ clean (am_code (snd kv))) ms.
Proof.
  revert bc ms bc'. induction l as [|[id mb] l IH]; intros bc ms bc'; cbn [take_more_blocks]; [intros [= <- _]; constructor|].
  destruct (parse_wo_params (mb_spec mb)) as [sp| |] eqn:P; cbn [map_err bind]; try discriminate. unfold take_container.
  destruct (blocks_try_from _) as [code| |] eqn:B; cbn [map_err bind]; try discriminate. destruct (take_more_blocks l _) as [[ms' bc2]| |] eqn:T; cbn [bind]; try discriminate.
  intros [= <- _]. constructor; [|eauto]. cbn [fst snd am_name am_spec am_code]. split; [|exact (read_clean _ _ B)]. split; [reflexivity|]. now apply (parsed_spec (mb_spec mb)).
Qed.
Lemma collected_nodup {V} (l : list (str * V)) : NoDup (map fst (scollect l)).
Proof.
  unfold scollect, lcollect. assert (H : NoDup (map fst ([] : smap V))) by constructor. revert H. generalize (@nil (str * V)). induction l as [|[k x] l IH]; intros m H; [exact H|]. cbn [fold_left]. apply IH. now apply sinsert_nodup.
Qed.
Definition screen_clean (s : screen) : Prop :=
  NoDup (map fst (sc_more_blocks s)) /\ NoDup (map fst (sc_components s)) /\
  Forall (fun kv => am_name (snd kv) = fst kv /\ am_spec (snd kv) <> [] /\ Forall plain_item (am_spec (snd kv))) (sc_more_blocks s) /\
  Forall clean (screen_codes s).
Lemma screen_read_clean ln jn fe ve le fab s : screen_from_parsed ln jn fe ve le fab = Ok s -> screen_clean s.
Proof.
  unfold screen_from_parsed. destruct (parse_raw_layout ve) as [views| |]; cbn [map_err bind]; try discriminate.
  destruct (take_more_blocks _ _) as [[ms bc]| |] eqn:TM; cbn [bind]; try discriminate. destruct (take_components _) as [cs| |]; cbn [map_err bind]; try discriminate.
  destruct (take_events _ _) as [es| |] eqn:TE; cbn [bind]; try discriminate. intros [= <-]. unfold screen_clean, screen_codes. cbn [sc_more_blocks sc_components sc_events].
  apply take_more_clean in TM. apply take_events_clean in TE. rewrite Forall_forall in TM, TE. split; [apply collected_nodup|]. split; [apply collected_nodup|]. split.
  - apply Forall_forall. intros kv K. apply in_scollect in K. apply (TM kv K).
  - apply Forall_app. split; apply Forall_forall; intros l K; apply in_map_iff in K as (x & <- & K); [now apply TE|]. apply in_scollect in K. apply (TM x K).
Qed.
Lemma take_screens_clean l lays lgs fabs ss lays' : take_screens l lays lgs fabs = Ok (ss, lays') -> Forall screen_clean ss.
Proof.
  revert lays lgs fabs ss lays'. induction l as [|fe l IH]; intros lays lgs fabs ss lays'; cbn [take_screens]; [intros [= <- _]; constructor|]. cbv zeta.
  destruct (screen_from_parsed _ _ _ _ _ _) as [s| |] eqn:S; cbn [map_err bind]; try discriminate. destruct (take_screens l _ _ _) as [[ss' lays2]| |] eqn:T; cbn [bind]; try discriminate.
  intros [= <- _]. constructor; [eapply screen_read_clean; eauto|eauto].
Qed.
Lemma project_read_clean rnd v p : project_try_from rnd v = Ok p -> Forall screen_clean (sp_screens p).
Proof.
  unfold project_try_from. cbv zeta. destruct (take_screens _ _ _ _) as [[ss lays]| |] eqn:T; cbn [bind]; try discriminate. intros H.
  repeat match type of H with context [bind ?x _] => destruct x; cbn [bind] in H; try discriminate H end.
  injection H as <-. cbn [sp_screens]. eapply take_screens_clean; eauto.
Qed.
Lemma clean_code l : clean l -> 9 + N.of_nat (blocks_size l) < 2 ^ 31 -> code_plain l.
Proof. intros C L. destruct (clean_plain l C) as (Nh & Pl & _). split; [exact L|]. split; assumption. Qed.
Lemma clean_given l : clean l -> (code_given l <-> no_lists l).
Proof. intros C. destruct (clean_plain l C) as (_ & _ & G). unfold code_given. symmetry. exact G. Qed.
(** the screens whose code is lost have none *)
Lemma without_codes s l : In l (screen_codes (without_code s)) -> l = [].
Proof.
  unfold screen_codes, without_code. cbn [sc_events sc_more_blocks]. rewrite in_app_iff, !map_map. cbn [ae_code snd am_code]. intros [I|I]; apply in_map_iff in I as (x & <- & _); reflexivity.
Qed.
Lemma kept_codes l s c : In s (code_kept l) -> In c (screen_codes s) -> c = [] \/ exists s', In s' l /\ In c (screen_codes s').
Proof.
  induction l as [|x l IH]; cbn [code_kept]; [intros []|]. intros I C.
  assert (W : In s (map without_code (x :: l)) -> c = []) by (intros J; apply in_map_iff in J as (y & <- & _); eapply without_codes; eauto).
  assert (K : In s (x :: code_kept l) -> c = [] \/ exists s', In s' (x :: l) /\ In c (screen_codes s')).
  { intros [->|J]; [right; exists s; split; [now left|exact C]|]. destruct (IH J C) as [E|(s' & J' & C')]; [now left|right; exists s'; split; [now right|exact C']]. }
  destruct (sc_events x), (sc_more_blocks x); auto.
Qed.
Lemma kept_lists l : Forall screen_clean l -> (all_given (code_kept l) <-> project_no_lists (code_kept l)).
Proof.
  intros H. unfold all_given, project_no_lists. rewrite !Forall_forall in *.
  assert (E : forall s c, In s (code_kept l) -> In c (screen_codes s) -> clean c).
  { intros s c I C. destruct (kept_codes _ _ _ I C) as [->|(s' & I' & C')]; [constructor|]. destruct (H s' I') as (_ & _ & _ & K). rewrite Forall_forall in K. auto. }
  split; intros K s I; specialize (K s I); rewrite Forall_forall in *; intros c C; apply (clean_given c); eauto.
Qed.
