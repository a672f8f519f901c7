(** [M_Project.content_ok] is [SpecNumber.storable]. *)
From Verif Require Import Base Flt Json JsonProofs M_Project SpecNumber NumberProofs NumberTextProofs.
From Coq Require Import Lia.
Local Open Scope Z_scope.

Lemma scaled_class_cases n : scaled_class n = NRange \/ exists x, scaled_class n = NF64 x.
Proof.
  unfold scaled_class. destruct (parts n) as [a b]. cbv zeta.
  destruct (jexp n) as [[en ds]|].
  - destruct (_ <? _)%N; [destruct (_ && _); eauto|]. destruct (f64_from_parts _ _ _); eauto.
  - destruct (f64_from_parts _ _ _); eauto.
Qed.
Lemma classify_range n : classify n <> NRange <-> integral n \/ exists x, float_text n x.
Proof.
  pose proof (decimal_nonneg (jint n)) as P. split.
  - intros H. destruct (classify n) as [u|z|x|] eqn:C; [left|left|right; exists x; now apply classify_float|contradiction].
    + rewrite classify_cases in C. unfold integral. destruct (scaled_class_cases n) as [S|[x S]]; rewrite S in C;
        (destruct (jfrac n), (jexp n); try discriminate; destruct (Z.ltb_spec (decimal (jint n)) (2 ^ 64)); [|discriminate];
         destruct (jneg n); [destruct (_ || _); discriminate|auto]).
    + rewrite classify_cases in C. unfold integral. destruct (scaled_class_cases n) as [S|[x S]]; rewrite S in C;
        (destruct (jfrac n), (jexp n); try discriminate; destruct (Z.ltb_spec (decimal (jint n)) (2 ^ 64)); [|discriminate];
         destruct (jneg n); [|discriminate]; destruct (N.eqb_spec (Z.to_N (decimal (jint n))) 0); [discriminate|];
         destruct (N.ltb_spec 9223372036854775808 (Z.to_N (decimal (jint n)))); [discriminate|]; repeat split; lia).
  - intros [(F & E & I)|[x F]].
    + rewrite classify_cases, F, E. destruct (Z.ltb_spec (decimal (jint n)) (2 ^ 64)); [|destruct (jneg n); lia].
      destruct (jneg n); [destruct (_ || _); discriminate|discriminate].
    + apply classify_float in F. congruence.
Qed.

(** with [d] levels *)
Record fits (d : nat) (v : json) : Prop := {
  ft_levels : (levels v <= d)%nat;
  ft_numbers n : within (JNum n) v -> integral n \/ exists x, float_text n x;
  ft_texts : ~ within (JStr None) v;
  ft_names l x : within (JObj l) v -> ~ In (None, x) l
}.
Lemma list_max_le_In l n : (list_max l <= n)%nat <-> forall x, In x l -> (x <= n)%nat.
Proof. rewrite list_max_le, Forall_forall. reflexivity. Qed.
Lemma fits_arr d l : fits (S d) (JArr l) <-> forall x, In x l -> fits d x.
Proof.
  split.
  - intros [L N T K] x I. cbn [levels] in L.
    assert (W : forall v, within v x -> within v (JArr l)) by (intros v H; now apply within_item with x).
    constructor; auto. apply le_S_n in L. rewrite list_max_le_In in L. apply L. now apply in_map.
  - intros H. assert (W : forall v, within v (JArr l) -> v = JArr l \/ exists x, In x l /\ within v x) by (intros v X; inversion X; subst; eauto).
    constructor.
    + cbn [levels]. apply le_n_S, list_max_le_In. intros m I. apply in_map_iff in I as (x & <- & I). now apply H.
    + intros n X. apply W in X as [[=]|(x & I & X)]. now apply (ft_numbers d x (H x I)).
    + intros X. apply W in X as [[=]|(x & I & X)]. now apply (ft_texts d x (H x I)).
    + intros l' y X. apply W in X as [[=]|(x & I & X)]. now apply (ft_names d x (H x I)).
Qed.
Lemma fits_obj d l : fits (S d) (JObj l) <-> forall k x, In (k, x) l -> k <> None /\ fits d x.
Proof.
  split.
  - intros [L N T K] k x I. cbn [levels] in L. split; [intros ->; now apply (K l x (within_self _))|].
    assert (W : forall v, within v x -> within v (JObj l)) by (intros v H; now apply within_member with k x).
    constructor; auto. apply le_S_n in L. rewrite list_max_le_In in L. apply L. apply in_map_iff. now exists (k, x).
  - intros H. assert (W : forall v, within v (JObj l) -> v = JObj l \/ exists k x, In (k, x) l /\ within v x) by (intros v X; inversion X; subst; eauto).
    constructor.
    + cbn [levels]. apply le_n_S, list_max_le_In. intros m I. apply in_map_iff in I as ([k x] & <- & I). now apply (proj2 (H k x I)).
    + intros n X. apply W in X as [[=]|(k & x & I & X)]. now apply (ft_numbers d x (proj2 (H k x I))).
    + intros X. apply W in X as [[=]|(k & x & I & X)]. now apply (ft_texts d x (proj2 (H k x I))).
    + intros l' y X. apply W in X as [[= ->]|(k & x & I & X)]; [|now apply (ft_names d x (proj2 (H k x I)))]. intros I. now destruct (H None y I) as [[] _].
Qed.
Lemma fits_leaf d v : (forall l, v <> JArr l) -> (forall l, v <> JObj l) ->
  fits d v <-> v <> JStr None /\ forall n, v = JNum n -> integral n \/ exists x, float_text n x.
Proof.
  intros A O. assert (W : forall w, within w v -> w = v) by (intros w X; inversion X; subst; [reflexivity|now destruct (A l)|now destruct (O l)]).
  split.
  - intros [L N T K]. split; [intros ->; apply T; constructor|]. intros n ->. apply N. constructor.
  - intros [T N]. constructor.
    + destruct v; cbn [levels]; try lia; [now destruct (A l)|now destruct (O l)].
    + intros n X. apply W in X. now apply N.
    + intros X. apply W in X. congruence.
    + intros l x X. apply W in X. subst v. now destruct (O l).
Qed.
Lemma content_fits v : forall d, content_ok d v = true <-> fits d v.
Proof.
  induction v as [|b|n|s|l IH|l IH] using json_ind2; intros d.
  - rewrite fits_leaf by congruence. replace (content_ok d JNull) with true by (destruct d; reflexivity). split; [intros _; split; congruence|reflexivity].
  - rewrite fits_leaf by congruence. replace (content_ok d (JBool b)) with true by (destruct d; reflexivity). split; [intros _; split; congruence|reflexivity].
  - rewrite fits_leaf by congruence.
    replace (content_ok d (JNum n)) with (match classify n with NRange => false | _ => true end) by (destruct d; reflexivity).
    transitivity (classify n <> NRange).
    + destruct (classify n); split; congruence.
    + rewrite classify_range. split; [intros H; split; [congruence|intros m [= <-]; exact H]|intros [_ H]; now apply H].
  - rewrite fits_leaf by congruence. replace (content_ok d (JStr s)) with (match s with Some _ => true | None => false end) by (destruct d; reflexivity).
    destruct s; split; try congruence; [intros _; split; congruence|intros [H _]; congruence].
  - destruct d as [|d]; cbn [content_ok].
    + split; [discriminate|]. intros [L _ _ _]. cbn [levels] in L. lia.
    + rewrite fits_arr, forallb_forall. rewrite Forall_forall in IH. split; intros H x I; apply (IH x I); auto.
  - destruct d as [|d]; cbn [content_ok].
    + split; [discriminate|]. intros [L _ _ _]. cbn [levels] in L. lia.
    + rewrite fits_obj, forallb_forall. rewrite Forall_forall in IH. split.
      * intros H k x I. specialize (H (k, x) I). cbn [fst snd] in H. destruct k as [t|]; [|discriminate]. split; [congruence|]. now apply (IH (Some t, x) I).
      * intros H [k x] I. destruct (H k x I) as [K F]. cbn [fst snd]. destruct k as [t|]; [|congruence]. now apply (IH (Some t, x) I).
Qed.
Lemma content_storable v : content_ok CONTENT_DEPTH v = true <-> storable v.
Proof.
  rewrite content_fits. split; intros [L N T K]; constructor; auto.
Qed.
