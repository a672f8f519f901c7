(** Lemmas about struct encoding and decoding. *)
From Verif Require Import Base Str Json JsonProofs Recs.
From Coq Require Import Permutation.

Lemma N_of_ascii_inj a b : N_of_ascii a = N_of_ascii b -> a = b.
Proof. intros H. rewrite <- (ascii_N_embedding a), <- (ascii_N_embedding b). now rewrite H. Qed.
Lemma lit_inj a b : lit a = lit b -> a = b.
Proof.
  unfold lit. revert b; induction a as [|x a IH]; destruct b as [|y b]; simpl; try discriminate; auto.
  intros [= H1 H2]. apply N_of_ascii_inj in H1. subst. f_equal. auto.
Qed.
Fixpoint assoc (n : string) (kvs : list (string * json)) : option json :=
  match kvs with
  | [] => None
  | (k, v) :: r => if String.eqb n k then Some v else assoc n r
  end.
Fixpoint nodups (l : list string) : bool :=
  match l with
  | [] => true
  | x :: r => negb (existsb (String.eqb x) r) && nodups r
  end.
Lemma nodups_spec l : nodups l = true -> NoDup l.
Proof.
  induction l as [|x l IH]; cbn [nodups]; intros H; constructor; apply andb_prop in H as [H1 H2]; auto.
  intros Hin. apply negb_true_iff in H1. apply not_true_iff_false in H1. apply H1.
  apply existsb_exists. exists x. split; auto. apply String.eqb_refl.
Qed.
Lemma find_assoc n kvs :
  option_map snd (find (fun kv => okey_eqb (lit n) (fst kv)) (map (fun kv => (Some (lit (fst kv)), snd kv)) kvs)) = assoc n kvs.
Proof.
  induction kvs as [|[k v] kvs IH]; auto. cbn [map find assoc fst snd okey_eqb].
  destruct (String.eqb_spec n k) as [->|Hn].
  - now rewrite str_eqb_refl.
  - replace (str_eqb (lit n) (lit k)) with false; auto. symmetry. apply str_eqb_neq. intros E. apply Hn. now apply lit_inj.
Qed.
Lemma sf_obj names kvs : nodups (map fst kvs) = true ->
  sf names (e_obj kvs) = Some (map (fun n => assoc n kvs) names).
Proof.
  intros H. unfold sf, struct_fields, e_obj.
  set (o := map (fun kv : string * json => (Some (lit (fst kv)), snd kv)) kvs).
  assert (K : forallb key_valid o = true).
  { apply forallb_forall. intros x Hx. unfold o in Hx. apply in_map_iff in Hx as [y [<- _]]. reflexivity. }
  rewrite K.
  assert (ND : NoDup (map fst o)).
  { unfold o. rewrite map_map. cbn [fst]. apply nodups_spec in H. clear - H.
    induction kvs as [|[k v] kvs IH]; cbn [map fst] in *; constructor; inversion H as [|? ? H1 H2]; subst; auto.
    intros Hin. apply in_map_iff in Hin as [[k' v'] [E Hin]]. cbn [fst] in E. injection E as E. apply lit_inj in E. subst.
    apply H1. apply in_map_iff. exists (k, v'). auto. }
  clear H K. induction names as [|n names IH]; auto. cbn [map omapM].
  rewrite field_of_nodup by auto. unfold o at 1. rewrite find_assoc. cbn [obind]. rewrite IH. reflexivity.
Qed.
Lemma wf_e_obj kvs : wf_json (e_obj kvs) = forallb (fun kv => wf_json (snd kv)) kvs.
Proof.
  unfold e_obj. cbn [wf_json]. induction kvs as [|kv kvs IH]; auto. cbn [map forallb snd]. now rewrite IH.
Qed.
Lemma wf_arr {A} (e : A -> json) l : (forall x, In x l -> wf_json (e x) = true) -> wf_json (JArr (map e l)) = true.
Proof.
  intros H. cbn [wf_json]. apply forallb_forall. intros x Hx. apply in_map_iff in Hx as [y [<- Hy]]. auto.
Qed.
Lemma d_list_e {A} (d : json -> option A) (e : A -> json) l : (forall x, In x l -> d (e x) = Some x) ->
  d_list d (JArr (map e l)) = Some l.
Proof.
  intros H. cbn [d_list]. induction l as [|x l IH]; auto. cbn [map omapM]. rewrite H by (left; auto). cbn [obind].
  rewrite IH; auto. intros y Hy. apply H. now right.
Qed.
Lemma from_to {A} (d : json -> option A) (e : A -> json) x : wf_json (e x) = true -> d (e x) = Some x ->
  from_str d (to_string e x) = Some x.
Proof. intros W H. unfold from_str, to_string. rewrite parse_print by auto. exact H. Qed.
Lemma to_string_clean {A} (e : A -> json) x kvs : e x = e_obj kvs -> wf_json (e x) = true -> clean_line (to_string e x).
Proof. intros E W. unfold to_string. rewrite E in *. unfold e_obj in *. now apply print_obj_clean. Qed.

(** ** Reordered and unknown fields *)
Definition known (names : list string) (kv : option str * json) : bool :=
  existsb (fun n => okey_eqb (lit n) (fst kv)) names.
Lemma filter_known names n kvs : In n names ->
  filter (fun kv => okey_eqb (lit n) (fst kv)) kvs =
  filter (fun kv => okey_eqb (lit n) (fst kv)) (filter (known names) kvs).
Proof.
  intros Hin. induction kvs as [|kv kvs IH]; auto. cbn [filter]. destruct (okey_eqb (lit n) (fst kv)) eqn:E.
  - assert (K : known names kv = true) by (apply existsb_exists; eauto). rewrite K. cbn [filter]. rewrite E. now rewrite IH.
  - rewrite IH. destruct (known names kv); auto. cbn [filter]. now rewrite E.
Qed.
Lemma Permutation_filter {A} (P : A -> bool) l l' : Permutation l l' -> Permutation (filter P l) (filter P l').
Proof.
  induction 1; cbn [filter]; auto.
  - destruct (P x); auto.
  - destruct (P x), (P y); auto. apply perm_swap.
  - etransitivity; eauto.
Qed.
Lemma sf_perm names kvs kvs' :
  forallb key_valid kvs = forallb key_valid kvs' ->
  Permutation (filter (known names) kvs) (filter (known names) kvs') ->
  sf names (JObj kvs) = sf names (JObj kvs').
Proof.
  intros K P. unfold sf, struct_fields. rewrite <- K. destruct (forallb key_valid kvs); auto.
  assert (G : forall n, In n names -> field_of kvs (lit n) = field_of kvs' (lit n)).
  { intros n Hn. unfold field_of. rewrite (filter_known names n kvs), (filter_known names n kvs') by auto.
    apply (Permutation_filter (fun kv => okey_eqb (lit n) (fst kv))) in P.
    destruct (filter _ (filter (known names) kvs)) as [|a [|b t]] eqn:E.
    - apply Permutation_nil in P. now rewrite P.
    - apply Permutation_length_1_inv in P. now rewrite P.
    - apply Permutation_length in P. destruct (filter _ (filter (known names) kvs')) as [|a' [|b' t']]; try discriminate. reflexivity. }
  clear K P. induction names as [|n names IH]; auto. cbn [map omapM]. rewrite G by (left; auto).
  destruct (field_of kvs' (lit n)); auto. cbn [obind]. rewrite IH; auto. intros m Hm. apply G. now right.
Qed.
(** a known field that occurs twice *)
Lemma sf_dup names kvs n a v b w c : In n names ->
  kvs = a ++ (Some (lit n), v) :: b ++ (Some (lit n), w) :: c -> sf names (JObj kvs) = None.
Proof.
  intros Hn ->. unfold sf, struct_fields. destruct (forallb key_valid _); auto.
  assert (F : field_of (a ++ (Some (lit n), v) :: b ++ (Some (lit n), w) :: c) (lit n) = None).
  { unfold field_of. rewrite filter_app. cbn [filter fst okey_eqb]. rewrite str_eqb_refl, filter_app.
    cbn [filter fst okey_eqb]. rewrite str_eqb_refl.
    destruct (filter _ a) as [|x1 [|x2 t]]; cbn [app]; try reflexivity.
    destruct (filter (fun kv => okey_eqb (lit n) (fst kv)) b) as [|? ?]; reflexivity. }
  induction names as [|m names IH]; [destruct Hn|]. cbn [map omapM]. destruct Hn as [->|Hn].
  - now rewrite F.
  - destruct (field_of _ (lit m)); auto. cbn [obind]. rewrite IH; auto.
Qed.
(** a field that does not occur *)
Lemma sf_missing names kvs i n fs : nth_error names i = Some n -> ~ In (Some (lit n)) (map fst kvs) ->
  sf names (JObj kvs) = Some fs -> nth_error fs i = Some None.
Proof.
  intros Hi Hn. unfold sf, struct_fields. destruct (forallb key_valid kvs); [|discriminate].
  assert (F : field_of kvs (lit n) = Some None).
  { unfold field_of. replace (filter (fun kv => okey_eqb (lit n) (fst kv)) kvs) with (@nil (option str * json)); auto.
    clear Hi. induction kvs as [|[k v] kvs IH]; auto. cbn [map fst filter] in *.
    destruct (okey_eqb (lit n) k) eqn:E.
    - exfalso. apply Hn. left. destruct k; [|discriminate]. apply str_eqb_eq in E. now subst.
    - apply IH. intros Hin. apply Hn. now right. }
  revert i fs Hi; induction names as [|m names IH]; intros i fs Hi; [destruct i; discriminate|]. cbn [map omapM].
  destruct (field_of kvs (lit m)) eqn:E; [|discriminate]. cbn [obind]. destruct (omapM (field_of kvs) (map lit names)) eqn:E2; [|discriminate].
  cbn [obind]. intros [= <-]. destruct i as [|i].
  - cbn [nth_error] in *. injection Hi as <-. congruence.
  - cbn [nth_error] in *. eapply IH; eauto.
Qed.
