(** Lemmas about record lines ([clean_line]) and section texts. *)
From Verif Require Import Base Str Json JsonProofs.

Lemma clean_no_nl s : clean_line s -> ~ In NL s.
Proof. now intros []. Qed.
Lemma clean_head s : clean_line s -> exists t, s = 123 :: t.
Proof. intros [_ [t ->]]. eauto. Qed.
Lemma clean_nonnil s : clean_line s -> s <> [].
Proof. intros [_ [t ->]]. discriminate. Qed.
Lemma clean_last s : clean_line s -> last s 0 = 125.
Proof. intros [_ [t ->]]. change (123 :: t ++ [125]) with ((123 :: t) ++ [125]). apply last_last. Qed.
Lemma clean_edge s : clean_line s -> edge_ok s.
Proof.
  intros H. pose proof (clean_last s H) as L. destruct (clean_head s H) as [t ->]. split; [reflexivity|]. now rewrite L.
Qed.
Lemma clean_trim s : clean_line s -> trim s = s.
Proof. intros H. now apply trim_id, clean_edge. Qed.
Lemma clean_not_header s t : clean_line s -> str_eqb s (AT :: t) = false.
Proof. intros H. destruct (clean_head s H) as [u ->]. reflexivity. Qed.
Lemma join_edge ls : ls <> [] -> Forall clean_line ls -> edge_ok (join NL ls).
Proof.
  intros Hn H.
  assert (A : exists t, join NL ls = 123 :: t).
  { destruct ls as [|l ls]; [congruence|]. inversion H as [|? ? H1 H2]; subst. destruct (clean_head l H1) as [t ->].
    destruct ls; cbn [join]; eexists; reflexivity. }
  assert (B : last (join NL ls) 0 = 125).
  { induction H as [|l ls Hl Hls IH]; [congruence|]. destruct ls as [|l2 ls].
    - cbn [join]. now apply clean_last.
    - rewrite join_cons2.
      assert (D : join NL (l2 :: ls) <> []).
      { inversion Hls as [|? ? Hl2 ?]; subst. destruct (clean_head l2 Hl2) as [t ->]. destruct ls; discriminate. }
      change (l ++ NL :: join NL (l2 :: ls)) with (l ++ [NL] ++ join NL (l2 :: ls)).
      rewrite app_assoc, last_app_ne by auto. apply IH; [discriminate|].
      inversion Hls as [|? ? Hl2 ?]; subst. destruct (clean_head l2 Hl2) as [t ->]. destruct ls; eexists; reflexivity. }
  destruct A as [t E]. rewrite E in *. split; [reflexivity|]. now rewrite B.
Qed.
Lemma trim_join ls : Forall clean_line ls -> trim (join NL ls) = join NL ls.
Proof.
  intros H. destruct ls; [reflexivity|]. apply trim_id. apply join_edge; [discriminate|auto].
Qed.
(** "{acc}\n{item}" folds *)
Lemma fold_pre {A} (f : A -> str) l acc :
  fold_left (fun acc i => acc ++ [NL] ++ f i) l acc = acc ++ concat (map (fun i => NL :: f i) l).
Proof.
  revert acc; induction l as [|x l IH]; intros acc; cbn [fold_left map concat]; [now rewrite app_nil_r|].
  rewrite IH, <- app_assoc. reflexivity.
Qed.
Lemma concat_pre {A} (f : A -> str) l : l <> [] -> concat (map (fun i => NL :: f i) l) = NL :: join NL (map f l).
Proof.
  induction l as [|x l IH]; [congruence|]. intros _. cbn [map concat]. destruct l as [|y l].
  - cbn [map concat join]. now rewrite app_nil_r.
  - rewrite IH by discriminate. cbn [map]. rewrite join_cons2. reflexivity.
Qed.
Lemma trim_fold_pre {A} (f : A -> str) l : Forall (fun i => clean_line (f i)) l ->
  trim (fold_left (fun acc i => acc ++ [NL] ++ f i) l []) = join NL (map f l).
Proof.
  intros H. rewrite fold_pre. cbn [app]. destruct l as [|x l]; [reflexivity|]. rewrite concat_pre by discriminate.
  rewrite trim_ws_l by reflexivity. apply trim_join. now apply Forall_map.
Qed.
(** "{acc}{item}\n" folds *)
Lemma fold_post {A} (f : A -> str) l acc :
  fold_left (fun acc i => acc ++ f i ++ [NL]) l acc = acc ++ concat (map (fun i => f i ++ [NL]) l).
Proof.
  revert acc; induction l as [|x l IH]; intros acc; cbn [fold_left map concat]; [now rewrite app_nil_r|].
  rewrite IH, <- !app_assoc. reflexivity.
Qed.
Lemma concat_post {A} (f : A -> str) l : l <> [] -> concat (map (fun i => f i ++ [NL]) l) = join NL (map f l) ++ [NL].
Proof.
  induction l as [|x l IH]; [congruence|]. intros _. cbn [map concat]. destruct l as [|y l].
  - cbn [map concat join]. now rewrite app_nil_r.
  - rewrite IH by discriminate. cbn [map]. rewrite join_cons2. rewrite <- !app_assoc. reflexivity.
Qed.
Lemma trim_fold_post {A} (f : A -> str) l : Forall (fun i => clean_line (f i)) l ->
  trim (fold_left (fun acc i => acc ++ f i ++ [NL]) l []) = join NL (map f l).
Proof.
  intros H. rewrite fold_post. cbn [app]. destruct l as [|x l]; [reflexivity|]. rewrite concat_post by discriminate.
  rewrite trim_ws_r by reflexivity. apply trim_join. now apply Forall_map.
Qed.
Lemma join_nil_sep (l : str) ls : ls <> [] -> l ++ NL :: join NL ls = join NL (l :: ls).
Proof. intros H. destruct ls; [congruence|]. now rewrite join_cons2. Qed.
Lemma join_ne_app ls rest : ls <> [] -> rest <> [] -> join NL ls ++ NL :: join NL rest = join NL (ls ++ rest).
Proof. intros. now rewrite join_app. Qed.
(** [~ In NL "literal"] *)
Ltac nonl := let H := fresh in intros H; vm_compute in H; repeat (destruct H as [H|H]; [discriminate H|]); exact H.
