(** Lemmas about the string and map operations of [Base.v]. *)
From Verif Require Import Base.
From Coq Require Import Permutation.

(** ** Equality *)
Lemma str_eqb_refl s : str_eqb s s = true.
Proof. induction s; simpl; auto. now rewrite N.eqb_refl. Qed.
Lemma str_eqb_eq a b : str_eqb a b = true <-> a = b.
Proof.
  split; [|intros ->; apply str_eqb_refl].
  revert b; induction a; destruct b; simpl; intros H; try discriminate; auto.
  apply andb_prop in H as [H1 H2]. apply N.eqb_eq in H1. subst. f_equal; auto.
Qed.
Lemma str_eqb_neq a b : str_eqb a b = false <-> a <> b.
Proof.
  split; intros H.
  - intros E. apply str_eqb_eq in E. congruence.
  - destruct (str_eqb a b) eqn:E; auto. apply str_eqb_eq in E. contradiction.
Qed.
Lemma str_eqb_sym a b : str_eqb a b = str_eqb b a.
Proof.
  destruct (str_eqb a b) eqn:E.
  - apply str_eqb_eq in E. subst. symmetry. apply str_eqb_refl.
  - symmetry. apply str_eqb_neq. apply str_eqb_neq in E. auto.
Qed.
Lemma str_eqb_spec a b : reflect (a = b) (str_eqb a b).
Proof. apply iff_reflect. symmetry. apply str_eqb_eq. Qed.

(** ** split / join *)
Lemma split_on_nonnil c s : split_on c s <> [].
Proof. destruct s; simpl; try discriminate. destruct (n =? c); try discriminate.
  destruct (split_on c s); discriminate. Qed.
Lemma split_on_noc c s : ~ In c s -> split_on c s = [s].
Proof.
  induction s; simpl; intros H; auto.
  destruct (N.eqb_spec a c); [exfalso; auto|]. rewrite IHs; auto.
Qed.
Lemma split_on_app c l r : ~ In c l -> split_on c (l ++ c :: r) = l :: split_on c r.
Proof.
  induction l; simpl; intros H.
  - now rewrite N.eqb_refl.
  - destruct (N.eqb_spec a c); [exfalso; auto|]. rewrite IHl; auto.
Qed.
Lemma join_cons2 c a b r : join c (a :: b :: r) = a ++ c :: join c (b :: r).
Proof. reflexivity. Qed.
Lemma split_join c ls : ls <> [] -> Forall (fun l => ~ In c l) ls -> split_on c (join c ls) = ls.
Proof.
  induction ls as [|a r IH]; intros Hn Hf; [congruence|].
  inversion Hf; subst. destruct r.
  - simpl. now apply split_on_noc.
  - rewrite join_cons2, split_on_app; auto. f_equal. apply IH; auto. discriminate.
Qed.
Lemma join_split c s : join c (split_on c s) = s.
Proof.
  induction s as [|x r IH]; auto. simpl.
  pose proof (split_on_nonnil c r).
  destruct (N.eqb_spec x c).
  - subst. destruct (split_on c r) eqn:E; [contradiction|]. simpl in *. now rewrite IH.
  - destruct (split_on c r) as [|h t] eqn:E; [contradiction|].
    destruct t; simpl in *; now rewrite IH.
Qed.
Lemma split_on_In c s : Forall (fun l => ~ In c l) (split_on c s).
Proof.
  induction s as [|x r IH]; simpl; [constructor; auto|].
  destruct (N.eqb_spec x c); [constructor; auto|].
  destruct (split_on c r) as [|h t]; inversion IH; subst; constructor; simpl; tauto.
Qed.
Lemma join_app c l1 l2 : l1 <> [] -> l2 <> [] -> join c (l1 ++ l2) = join c l1 ++ c :: join c l2.
Proof.
  induction l1 as [|a r IH]; intros H1 H2; [congruence|].
  destruct r as [|l r].
  - simpl app. destruct l2; [congruence|]. reflexivity.
  - change ((a :: l :: r) ++ l2) with (a :: (l :: r) ++ l2).
    change ((l :: r) ++ l2) with (l :: r ++ l2). rewrite !join_cons2.
    change (l :: r ++ l2) with ((l :: r) ++ l2). rewrite IH; auto; [|discriminate].
    now rewrite <- app_assoc.
Qed.
Lemma In_join c ls x : In x (join c ls) -> x = c \/ exists l, In l ls /\ In x l.
Proof.
  induction ls as [|a r IH]; simpl; [tauto|]. destruct r.
  - intros H. right. exists a. auto.
  - intros H. apply in_app_or in H as [H|[H|H]]; auto.
    + right. exists a. auto.
    + destruct (IH H) as [|[l' [H1 H2]]]; auto. right. exists l'. auto.
Qed.

(** ** prefixes and suffixes *)
Lemma strip_prefix_app p s : strip_prefix p (p ++ s) = Some s.
Proof. induction p; simpl; auto. now rewrite N.eqb_refl. Qed.
Lemma strip_prefix_spec p s r : strip_prefix p s = Some r <-> s = p ++ r.
Proof.
  split; [|intros ->; apply strip_prefix_app].
  revert s; induction p; simpl; intros s H; [congruence|].
  destruct s; try discriminate. destruct (N.eqb_spec a n); try discriminate.
  subst. f_equal; auto.
Qed.
Lemma starts_with_spec p s : starts_with p s = true <-> exists r, s = p ++ r.
Proof.
  unfold starts_with. destruct (strip_prefix p s) eqn:E.
  - apply strip_prefix_spec in E. split; eauto.
  - split; try discriminate. intros [r Hr]. apply strip_prefix_spec in Hr. congruence.
Qed.
Lemma starts_with_app p s : starts_with p (p ++ s) = true.
Proof. apply starts_with_spec; eauto. Qed.
Lemma ends_with_spec p s : ends_with p s = true <-> exists r, s = r ++ p.
Proof.
  unfold ends_with. rewrite starts_with_spec. split; intros [r Hr].
  - exists (rev r). rewrite <- (rev_involutive s), Hr, rev_app_distr, rev_involutive. auto.
  - exists (rev r). now rewrite Hr, rev_app_distr.
Qed.
Lemma ends_with_app p s : ends_with p (s ++ p) = true.
Proof. apply ends_with_spec; eauto. Qed.

Lemma split_once_spec p s a b : split_once p s = Some (a, b) -> s = a ++ p ++ b.
Proof.
  revert a b; induction s as [|x r IH]; simpl; intros a b H.
  - destruct p; simpl in H; try discriminate. injection H as <- <-. auto.
  - destruct (strip_prefix p (x :: r)) eqn:E.
    + injection H as <- <-. apply strip_prefix_spec in E. auto.
    + destruct (split_once p r) as [[a' b']|] eqn:F; try discriminate.
      injection H as <- <-. simpl. f_equal. auto.
Qed.
(** leftmost-match characterisation for a one-char pattern *)
Lemma split_once_char c a b : ~ In c a -> split_once [c] (a ++ c :: b) = Some (a, b).
Proof.
  induction a; simpl; intros H.
  - now rewrite N.eqb_refl.
  - destruct (N.eqb_spec c a); [exfalso; auto|]. rewrite IHa; auto.
Qed.
Lemma split_once_char_none c a : ~ In c a -> split_once [c] a = None.
Proof.
  induction a; simpl; intros H; auto.
  destruct (N.eqb_spec c a); [exfalso; auto|]. rewrite IHa; auto.
Qed.

(** ** byte slicing *)
Lemma u8len_pos c : (1 <= u8len c)%nat.
Proof. unfold u8len. repeat destruct (_ <? _); lia. Qed.
Lemma blen_app a b : blen (a ++ b) = (blen a + blen b)%nat.
Proof. induction a; simpl; auto. rewrite IHa. lia. Qed.
Lemma bdrop_0 s : bdrop 0 s = Some s.
Proof. destruct s; auto. Qed.
Lemma btake_0 s : btake 0 s = Some [].
Proof. destruct s; auto. Qed.
Lemma bdrop_app p s : bdrop (blen p) (p ++ s) = Some s.
Proof.
  induction p as [|c p IH]; simpl; [apply bdrop_0|].
  pose proof (u8len_pos c). destruct (u8len c + blen p)%nat eqn:E; [lia|].
  rewrite <- E. replace (u8len c <=? u8len c + blen p)%nat with true
    by (symmetry; apply Nat.leb_le; lia).
  replace (u8len c + blen p - u8len c)%nat with (blen p) by lia. apply IH.
Qed.
Lemma btake_app p s : btake (blen p) (p ++ s) = Some p.
Proof.
  induction p as [|c p IH]; simpl; [apply btake_0|].
  pose proof (u8len_pos c). destruct (u8len c + blen p)%nat eqn:E; [lia|].
  rewrite <- E. replace (u8len c <=? u8len c + blen p)%nat with true
    by (symmetry; apply Nat.leb_le; lia).
  replace (u8len c + blen p - u8len c)%nat with (blen p) by lia. now rewrite IH.
Qed.
Lemma bslice_app a b c : bslice (blen a) (blen a + blen b) (a ++ b ++ c) = Some b.
Proof.
  unfold bslice. replace (blen a <=? blen a + blen b)%nat with true
    by (symmetry; apply Nat.leb_le; lia).
  rewrite bdrop_app. simpl. replace (blen a + blen b - blen a)%nat with (blen b) by lia.
  apply btake_app.
Qed.
Lemma bdrop_spec n s r : bdrop n s = Some r -> exists p, s = p ++ r /\ blen p = n.
Proof.
  revert n; induction s as [|c s IH]; intros n H.
  - destruct n; simpl in H; [|discriminate]. injection H as <-. exists []. auto.
  - destruct n; [injection H as <-; exists []; auto|]. cbn [bdrop] in H.
    destruct (Nat.leb_spec (u8len c) (S n)); [|discriminate].
    apply IH in H as [p [Hp Hb]]. exists (c :: p). split; [simpl; congruence|].
    cbn [blen]. lia.
Qed.
Lemma btake_spec n s p : btake n s = Some p -> exists r, s = p ++ r /\ blen p = n.
Proof.
  revert n p; induction s as [|c s IH]; intros n p H.
  - destruct n; simpl in H; [|discriminate]. injection H as <-. exists []. auto.
  - destruct n; [injection H as <-; exists (c :: s); auto|]. cbn [btake] in H.
    destruct (Nat.leb_spec (u8len c) (S n)); [|discriminate].
    destruct (btake (S n - u8len c) s) eqn:E; [|discriminate].
    injection H as <-. apply IH in E as [r [Hr Hb]]. exists r. split; [simpl; congruence|].
    cbn [blen]. lia.
Qed.

(** ** trim *)
Definition edge_ok (s : str) : Prop :=
  match s with [] => True | c :: _ => is_ws c = false /\ is_ws (last s 0) = false end.
Lemma trim_start_nonws c s : is_ws c = false -> trim_start (c :: s) = c :: s.
Proof. simpl. now intros ->. Qed.
Lemma trim_start_ws w s : forallb is_ws w = true -> trim_start (w ++ s) = trim_start s.
Proof. induction w; simpl; auto. intros H. apply andb_prop in H as [-> H]. auto. Qed.
Lemma trim_end_snoc_ws s c : is_ws c = true -> trim_end (s ++ [c]) = trim_end s.
Proof. unfold trim_end. rewrite rev_app_distr. simpl. now intros ->. Qed.
Lemma trim_end_nonws s : is_ws (last s 0) = false -> trim_end s = s.
Proof.
  destruct s as [|x s] using rev_ind; auto. intros H. rewrite last_last in H.
  unfold trim_end. rewrite rev_app_distr. simpl. rewrite H. simpl.
  now rewrite rev_involutive.
Qed.
Lemma trim_end_snoc s c : is_ws c = false -> trim_end (s ++ [c]) = s ++ [c].
Proof. intros H. apply trim_end_nonws. now rewrite last_last. Qed.
Lemma trim_id s : edge_ok s -> trim s = s.
Proof.
  destruct s as [|c s]; auto. intros [H1 H2]. unfold trim.
  rewrite trim_start_nonws; auto. now apply trim_end_nonws.
Qed.
Lemma trim_nil : trim [] = [].
Proof. reflexivity. Qed.
Lemma trim_ws_l c s : is_ws c = true -> trim (c :: s) = trim s.
Proof. unfold trim. simpl. now intros ->. Qed.
Lemma trim_start_app_nonws s c r : is_ws c = false -> trim_start (s ++ c :: r) = trim_start (s ++ [c]) ++ r.
Proof.
  intros H. induction s; simpl.
  - now rewrite H.
  - destruct (is_ws a); auto. simpl. now rewrite <- app_assoc.
Qed.
Lemma trim_ws_r s c : is_ws c = true -> trim (s ++ [c]) = trim s.
Proof.
  intros H. unfold trim.
  induction s as [|x s IH]; simpl.
  - now rewrite H.
  - destruct (is_ws x); auto.
    change (x :: s ++ [c]) with ((x :: s) ++ [c]). now apply trim_end_snoc_ws.
Qed.
Lemma trim_end_all_ws s : forallb is_ws s = true -> trim_end s = [].
Proof.
  induction s as [|x s IH] using rev_ind; auto. rewrite forallb_app. intros H.
  apply andb_prop in H as [H1 H2]. simpl in H2. rewrite andb_true_r in H2.
  rewrite trim_end_snoc_ws; auto.
Qed.
Lemma trim_ws_app_r s w : forallb is_ws w = true -> trim (s ++ w) = trim s.
Proof.
  induction w as [|x w IH] using rev_ind; [now rewrite app_nil_r|].
  rewrite forallb_app. intros H. apply andb_prop in H as [H1 H2]. simpl in H2.
  rewrite andb_true_r in H2. rewrite app_assoc, trim_ws_r; auto.
Qed.
Lemma trim_ws_app_l w s : forallb is_ws w = true -> trim (w ++ s) = trim s.
Proof. intros H. unfold trim. now rewrite trim_start_ws. Qed.
Lemma edge_ok_last_app a b : a <> [] -> b <> [] -> edge_ok (a ++ b) <->
  is_ws (hd 0 a) = false /\ is_ws (last b 0) = false.
Proof.
  intros Ha Hb. destruct a as [|x a]; [congruence|]. unfold edge_ok. simpl app. cbv iota beta.
  simpl hd. replace (last (x :: a ++ b) 0) with (last b 0); [tauto|].
  change (x :: a ++ b) with ((x :: a) ++ b).
  destruct b as [|y b] using rev_ind; [congruence|]. now rewrite app_assoc, !last_last.
Qed.
Lemma last_app_ne {A} (a b : list A) d : b <> [] -> last (a ++ b) d = last b d.
Proof.
  intros Hb. destruct b as [|y b] using rev_ind; [congruence|]. now rewrite app_assoc, !last_last.
Qed.

(** ** insertion-ordered string maps *)
Section Smap.
  Context {V : Type}.
  Implicit Types m : smap V.
  Lemma sget_notin k m : ~ In k (map fst m) -> sget k m = None.
  Proof.
    induction m as [|[k' v] m IH]; simpl; auto. intros H.
    destruct (str_eqb_spec k k'); [subst; exfalso; auto|]. apply IH; auto.
  Qed.
  Lemma sget_some_in k v m : sget k m = Some v -> In (k, v) m.
  Proof.
    induction m as [|[k' v'] m IH]; simpl; try discriminate.
    destruct (str_eqb_spec k k'); [intros [= ->]; subst; auto|]. auto.
  Qed.
  Lemma sget_in k v m : NoDup (map fst m) -> In (k, v) m -> sget k m = Some v.
  Proof.
    induction m as [|[k' v'] m IH]; simpl; try tauto. intros Hn [H|H]; inversion Hn; subst.
    - injection H as -> ->. now rewrite str_eqb_refl.
    - destruct (str_eqb_spec k k').
      + subst. exfalso. apply H2. change k' with (fst (k', v)). now apply in_map.
      + auto.
  Qed.
  Lemma sget_app k m1 m2 : sget k (m1 ++ m2) = match sget k m1 with Some v => Some v | None => sget k m2 end.
  Proof.
    induction m1 as [|[k' v] m IH]; simpl; auto. destruct (str_eqb k k'); auto.
  Qed.
  Lemma sremove_notin k m : ~ In k (map fst m) -> sremove k m = m.
  Proof.
    induction m as [|[k' v] m IH]; simpl; auto. intros H.
    destruct (str_eqb_spec k k'); [subst; exfalso; auto|]. f_equal. apply IH; auto.
  Qed.
  Lemma sremove_keys k m x : In x (map fst (sremove k m)) <-> x <> k /\ In x (map fst m).
  Proof.
    induction m as [|[k' v] m IH]; simpl; [tauto|].
    fold (@sremove V k m).
    destruct (str_eqb_spec k k') as [->|Hne]; simpl; rewrite IH.
    - split; [intros []; auto|]. intros [Hn [He|Hi]]; [congruence|auto].
    - split; [intros [|[]]; subst; auto|intros [? [|]]; auto].
  Qed.
  Lemma sremove_nodup k m : NoDup (map fst m) -> NoDup (map fst (sremove k m)).
  Proof.
    induction m as [|[k' v] m IH]; simpl; auto. intros H. inversion H; subst.
    fold (@sremove V k m).
    destruct (str_eqb_spec k k'); auto. simpl. constructor; auto.
    rewrite sremove_keys. tauto.
  Qed.
  Lemma sget_remove_same k m : sget k (sremove k m) = None.
  Proof. apply sget_notin. rewrite sremove_keys. tauto. Qed.
  Lemma sget_remove_other k k' m : k <> k' -> sget k (sremove k' m) = sget k m.
  Proof.
    intros H. induction m as [|[a v] m IH]; simpl; auto.
    destruct (str_eqb_spec k' a); simpl.
    - subst. destruct (str_eqb_spec k a); [contradiction|]. auto.
    - destruct (str_eqb k a); auto.
  Qed.
  Lemma sget_insert_same k v m : sget k (sinsert k v m) = Some v.
  Proof.
    unfold sinsert, linsert. fold (@sremove V). rewrite sget_app, sget_remove_same. simpl.
    now rewrite str_eqb_refl.
  Qed.
  Lemma sget_insert_other k k' v m : k <> k' -> sget k (sinsert k' v m) = sget k m.
  Proof.
    intros H. unfold sinsert, linsert. fold (@sremove V). rewrite sget_app, sget_remove_other; auto.
    simpl. destruct (str_eqb_spec k k'); [contradiction|]. now destruct (sget k m).
  Qed.
  Lemma sinsert_nodup k v m : NoDup (map fst m) -> NoDup (map fst (sinsert k v m)).
  Proof.
    intros H. unfold sinsert, linsert. fold (@sremove V). rewrite map_app. simpl.
    rewrite <- (rev_involutive (map fst (sremove k m) ++ [k])). apply NoDup_rev.
    rewrite rev_app_distr. simpl. constructor.
    - rewrite <- in_rev, sremove_keys. tauto.
    - apply NoDup_rev. now apply sremove_nodup.
  Qed.
  Lemma sinsert_notin k v m : ~ In k (map fst m) -> sinsert k v m = m ++ [(k, v)].
  Proof. intros H. unfold sinsert, linsert. fold (@sremove V). now rewrite sremove_notin. Qed.
  Lemma scollect_app l1 l2 : @scollect V (l1 ++ l2) =
    fold_left (fun m kv => sinsert (fst kv) (snd kv) m) l2 (scollect l1).
  Proof. unfold scollect, lcollect. now rewrite fold_left_app. Qed.
  Lemma fold_sinsert_nodup l m : NoDup (map fst (m ++ l)) ->
    fold_left (fun m kv => sinsert (fst kv) (snd kv) m) l m = m ++ l.
  Proof.
    revert m; induction l as [|[k v] l IH]; intros m H; simpl; [now rewrite app_nil_r|].
    rewrite sinsert_notin.
    - rewrite IH; rewrite <- app_assoc; auto.
    - rewrite map_app in H. simpl in H. apply NoDup_remove_2 in H.
      intros Hin. apply H. apply in_or_app. auto.
  Qed.
  Lemma scollect_nodup l : NoDup (map fst l) -> @scollect V l = l.
  Proof. intros H. apply (fold_sinsert_nodup l []). auto. Qed.
  Lemma sget_perm k m m' : NoDup (map fst m) -> Permutation m m' -> sget k m = sget k m'.
  Proof.
    intros Hn Hp. destruct (sget k m) eqn:E.
    - symmetry. apply sget_in.
      + eapply Permutation_NoDup; [apply Permutation_map; exact Hp|auto].
      + eapply Permutation_in; [exact Hp|]. now apply sget_some_in.
    - destruct (sget k m') eqn:F; auto. apply sget_some_in in F.
      apply Permutation_sym in Hp. eapply Permutation_in in F; [|exact Hp].
      rewrite (sget_in k v m) in E; auto; congruence.
  Qed.
End Smap.

(** ** misc *)
Lemma mapM_ok {E A B} (f : A -> res E B) (g : A -> B) l :
  (forall a, In a l -> f a = Ok (g a)) -> mapM f l = Ok (map g l).
Proof.
  induction l; simpl; intros H; auto. rewrite H; auto. simpl. rewrite IHl; auto.
Qed.
Lemma mapM_map {E A B C} (f : B -> res E C) (g : A -> B) l :
  mapM f (map g l) = mapM (fun a => f (g a)) l.
Proof. induction l; simpl; auto. now rewrite IHl. Qed.
Lemma mapM_app {E A B} (f : A -> res E B) l1 l2 :
  mapM f (l1 ++ l2) = let* a := mapM f l1 in let* b := mapM f l2 in Ok (a ++ b).
Proof.
  induction l1; simpl.
  - now destruct (mapM f l2).
  - destruct (f a); simpl; auto. rewrite IHl1. destruct (mapM f l1); simpl; auto.
    now destruct (mapM f l2).
Qed.
Lemma mapM_nopanic {E A B} (f : A -> res E B) l :
  (forall a, f a <> Panic) -> mapM f l <> Panic.
Proof.
  intros H. induction l; simpl; try discriminate. destruct (f a) eqn:E1; simpl; try discriminate.
  - destruct (mapM f l); simpl; try discriminate. auto.
  - exfalso. now apply (H a).
Qed.
Lemma mapM_length {E A B} (f : A -> res E B) l r : mapM f l = Ok r -> List.length r = List.length l.
Proof.
  revert r; induction l; simpl; intros r H; [injection H as <-; auto|].
  destruct (f a); try discriminate. simpl in H. destruct (mapM f l); try discriminate.
  injection H as <-. simpl. f_equal. auto.
Qed.
Lemma mapM_Forall2 {E A B} (f : A -> res E B) l r :
  mapM f l = Ok r <-> Forall2 (fun a b => f a = Ok b) l r.
Proof.
  split.
  - revert r; induction l; simpl; intros r H; [injection H as <-; auto|].
    destruct (f a) eqn:E1; try discriminate. simpl in H. destruct (mapM f l); try discriminate.
    injection H as <-. constructor; auto.
  - induction 1; simpl; auto. rewrite H. simpl. now rewrite IHForall2.
Qed.
