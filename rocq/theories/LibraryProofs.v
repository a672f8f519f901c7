(** Order independence of library parsing (C19). *)
From Verif Require Import Base Str Json JsonProofs Recs M_Library.

(** a library text as a list of chunks: a foreign line, or a header line followed by an item line *)
Inductive lib_chunk := Foreign (line : str) | Section_ (s : lib_slot) (line : str) (item : library_item).
Definition chunk_lines (c : lib_chunk) : list str :=
  match c with Foreign l => [l] | Section_ s l _ => [lib_header s; l] end.
Definition chunk_ok (c : lib_chunk) : Prop :=
  match c with
  | Foreign l => ~ In NL l /\ forall s, l <> lib_header s
  | Section_ s l i => ~ In NL l /\ library_item_parse l = Some i
  end.
Definition lib_text (cs : list lib_chunk) : str := join NL (concat (map chunk_lines cs)).
Definition lib_field (s : lib_slot) (l : library) : library_item :=
  match s with LFirebase => l_firebase l | LCompat => l_compat l | LAdmob => l_admob l | LGoogleMap => l_google_map l end.
Definition slot_eqb (s s' : lib_slot) : bool :=
  match s, s' with LFirebase, LFirebase | LCompat, LCompat | LAdmob, LAdmob | LGoogleMap, LGoogleMap => true | _, _ => false end.
Definition st_field (s : lib_slot) (l : lib_state) : option library_item :=
  match s with LFirebase => ls_firebase l | LCompat => ls_compat l | LAdmob => ls_admob l | LGoogleMap => ls_google_map l end.

Lemma slot_of_none l : lib_slot_of l = None <-> forall s, l <> lib_header s.
Proof.
  unfold lib_slot_of. split.
  - intros H s ->. destruct s; discriminate H.
  - intros H. repeat match goal with |- context [str_eqb l ?h] => destruct (str_eqb l h) eqn:?E;
      [apply str_eqb_eq in E; exfalso; eapply H; exact E|clear E] end. reflexivity.
Qed.
Lemma slot_of_some l s : lib_slot_of l = Some s -> l = lib_header s.
Proof.
  unfold lib_slot_of. intros H. repeat match type of H with context [str_eqb l ?h] => destruct (str_eqb l h) eqn:?E;
      [apply str_eqb_eq in E; injection H as <-; exact E|clear E] end. discriminate.
Qed.
Lemma slot_of_hdr s : lib_slot_of (lib_header s) = Some s.
Proof. now destruct s. Qed.
Lemma hdr_nonl s : ~ In NL (lib_header s).
Proof. intros H. destruct s; vm_compute in H; repeat (destruct H as [H|H]; [discriminate|]); exact H. Qed.
Lemma st_set s s' i st : st_field s (lib_set s' i st) = if (slot_eqb s s') then Some i else st_field s st.
Proof. now destruct s, s'. Qed.
(** loop over chunks *)
Fixpoint chunks_state (cs : list lib_chunk) (st : lib_state) : lib_state :=
  match cs with
  | [] => st
  | Foreign _ :: r => chunks_state r st
  | Section_ s _ i :: r => chunks_state r (lib_set s i st)
  end.
Lemma lib_loop_chunks cs st n : Forall chunk_ok cs -> lib_loop (concat (map chunk_lines cs)) st n = Ok (chunks_state cs st).
Proof.
  intros H. revert st n; induction H as [|c cs Hc Hcs IH]; intros st n; [reflexivity|].
  destruct c as [l|s l i]; cbn [map concat chunk_lines app lib_loop chunks_state chunk_ok] in *.
  - destruct Hc as [_ Hc]. apply slot_of_none in Hc. rewrite Hc. apply IH.
  - destruct Hc as [_ Hc]. rewrite slot_of_hdr, Hc. apply IH.
Qed.
Lemma lib_text_lines cs : cs <> [] -> Forall chunk_ok cs -> split_on NL (lib_text cs) = concat (map chunk_lines cs).
Proof.
  intros Hn H. unfold lib_text. apply split_join.
  - destruct cs as [|[|] ?]; [congruence| |]; discriminate.
  - clear Hn. induction H as [|c cs Hc Hcs IH]; [constructor|]. cbn [map concat]. apply Forall_app. split; auto.
    destruct c; cbn in *; repeat constructor; try apply Hc. apply hdr_nonl.
Qed.
(** items of the chunks of one slot, in order *)
Definition items_of (s : lib_slot) (cs : list lib_chunk) : list library_item :=
  flat_map (fun c => match c with
                     | Section_ s' _ i => if (slot_eqb s s') then [i] else []
                     | _ => [] end) cs.
Lemma chunks_state_field s cs st : st_field s (chunks_state cs st) =
  match rev (items_of s cs) with i :: _ => Some i | [] => st_field s st end.
Proof.
  revert st; induction cs as [|c cs IH]; intros st; [reflexivity|]. destruct c as [l|s' l i]; cbn [chunks_state].
  - rewrite IH. reflexivity.
  - rewrite IH, st_set. unfold items_of. cbn [flat_map]. fold (items_of s cs). destruct (slot_eqb s s') eqn:E.
    + rewrite rev_app_distr. cbn [rev app]. destruct (rev (items_of s cs)); reflexivity.
    + reflexivity.
Qed.
Lemma library_parse_chunks cs l : Forall chunk_ok cs ->
  (forall s, exists pre, items_of s cs = pre ++ [lib_field s l]) -> library_parse (lib_text cs) = Ok l.
Proof.
  intros H Hs. assert (Hn : cs <> []).
  { intros ->. destruct (Hs LFirebase) as [pre E]. destruct pre; discriminate. }
  unfold library_parse. rewrite lib_text_lines, lib_loop_chunks by auto. cbn [bind].
  set (z := {| ls_firebase := None; ls_compat := None; ls_admob := None; ls_google_map := None |}).
  assert (K : forall s, st_field s (chunks_state cs z) = Some (lib_field s l)).
  { intros s. rewrite chunks_state_field. destruct (Hs s) as [pre ->]. now rewrite rev_app_distr. }
  pose proof (K LFirebase) as K1. pose proof (K LCompat) as K2. pose proof (K LAdmob) as K3. pose proof (K LGoogleMap) as K4.
  cbn [st_field lib_field] in *. rewrite K1. cbn [ok_or bind]. rewrite K2. cbn [ok_or bind]. rewrite K3. cbn [ok_or bind]. rewrite K4.
  cbn [ok_or bind]. now destruct l.
Qed.
(** a header that never occurs leaves its slot unset *)
Lemma lib_loop_missing s ls st n st' : ~ In (lib_header s) ls -> st_field s st = None ->
  lib_loop ls st n = Ok st' -> st_field s st' = None.
Proof.
  remember (length ls) as k eqn:Ek. assert (Hk : (length ls <= k)%nat) by lia. clear Ek.
  revert ls st n Hk; induction k as [|k IH]; intros ls st n Hk Hin Hst.
  - destruct ls; [|cbn in Hk; lia]. cbn. intros [= <-]. auto.
  - destruct ls as [|l ls]; cbn [lib_loop]; [intros [= <-]; auto|]. cbn [length] in Hk.
    destruct (lib_slot_of l) as [s'|] eqn:E.
    + apply slot_of_some in E. destruct ls as [|item ls]; [discriminate|].
      destruct (library_item_parse item); [|discriminate]. apply IH.
      * cbn [length] in Hk. lia.
      * intros H. apply Hin. cbn. auto.
      * rewrite st_set. destruct (slot_eqb s s') eqn:E2; auto.
        exfalso. apply Hin. left. rewrite E. destruct s, s'; (discriminate E2 || reflexivity).
    + apply IH; [lia| |auto]. intros H. apply Hin. now right.
Qed.
Lemma lib_loop_nopanic ls st n : lib_loop ls st n <> Panic.
Proof.
  remember (length ls) as k eqn:Ek. assert (Hk : (length ls <= k)%nat) by lia. clear Ek.
  revert ls st n Hk; induction k as [|k IH]; intros ls st n Hk.
  - destruct ls; [|cbn in Hk; lia]. discriminate.
  - destruct ls as [|l ls]; cbn [lib_loop]; [discriminate|]. cbn [length] in Hk. destruct (lib_slot_of l).
    + destruct ls as [|item ls]; [discriminate|]. destruct (library_item_parse item); [|discriminate]. apply IH. cbn in Hk. lia.
    + apply IH. lia.
Qed.
Lemma library_missing s t : ~ In (lib_header s) (split_on NL t) -> exists e, library_parse t = Err e.
Proof.
  intros H. unfold library_parse.
  set (z := {| ls_firebase := None; ls_compat := None; ls_admob := None; ls_google_map := None |}).
  pose proof (lib_loop_nopanic (split_on NL t) z 0) as NP.
  destruct (lib_loop (split_on NL t) z 0) as [st|e|] eqn:E; [|exists e; reflexivity|congruence]. cbn [bind].
  assert (Z : st_field s z = None) by (now destruct s). apply (lib_loop_missing s _ _ _ _ H Z) in E.
  destruct (ls_firebase st) eqn:E1; cbn [ok_or bind]; [|eauto]. destruct (ls_compat st) eqn:E2; cbn [ok_or bind]; [|eauto].
  destruct (ls_admob st) eqn:E3; cbn [ok_or bind]; [|eauto]. destruct (ls_google_map st) eqn:E4; cbn [ok_or bind]; [|eauto].
  destruct s; cbn in E; congruence.
Qed.
