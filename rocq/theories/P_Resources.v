(** Property C48: the resource maps of a project (/repo/src/api/mod.rs L101-225). *)
From Verif Require Import Base Str M_Raw A_Project.

(** what is stored under a type and an id *)
Definition holds (r : resources) (t : res_type) (id : str) (w : res_wrapper) : Prop :=
  match t with
  | RImage => sget id (re_images r) = Some w
  | RSound => sget id (re_sounds r) = Some w
  | RFont => sget id (re_fonts r) = Some w
  | RCustomIcon => False
  end.
Definition taken (r : resources) (id : str) : Prop := exists t w, holds r t id w.
(** no id is in use for two types *)
Definition one_owner (r : resources) : Prop := forall t t' id w w', holds r t id w -> holds r t' id w' -> t = t'.
(** the same file, with the given type *)
Definition retyped (t : res_type) (w w' : res_wrapper) : Prop :=
  match w with
  | WPath _ => w' = w
  | WStringId i n _ => w' = WStringId i n t
  | WU32Id i n _ => w' = WU32Id i n t
  end.
Definition missing (ex : str -> bool) (w : res_wrapper) : Prop := exists p, w = WPath p /\ ex p = false.

(** ** What a call answers *)
Theorem C48_outcomes ex id w t r :
  (put_resource ex id w t r = Panic <-> t = RCustomIcon) /\
  (forall e, put_resource ex id w t r = Err e <->
     t <> RCustomIcon /\ ((exists p, e = AddFileDoesntExist p /\ w = WPath p /\ ex p = false) \/
                          (e = IdTaken id /\ ~ missing ex w /\ exists w', holds r RImage id w'))) /\
  ((exists r', put_resource ex id w t r = Ok r') <->
     t <> RCustomIcon /\ ~ missing ex w /\ forall w', ~ holds r RImage id w').
Proof.
  assert (M : missing ex w \/ ~ missing ex w).
  { destruct w as [p| |]; [destruct (ex p) eqn:E|..]; [right|left|right|right].
    - intros (q & H & F). congruence.
    - exists p. auto.
    - intros (q & H & F). congruence.
    - intros (q & H & F). congruence. }
  unfold put_resource. cbn [holds]. change (smem id (re_images r)) with (match sget id (re_images r) with Some _ => true | None => false end).
  destruct M as [(p & -> & E)|M].
  - destruct t; cbn; rewrite ?E; cbn; (split; [split; congruence|]); (split; [intros e|]); split;
      try (intros (? & ?); discriminate); try (intros [H _]; elim H; reflexivity); try discriminate.
    all: try (intros (_ & H & _); elim H; exists p; auto).
    all: try (intros [= <-]; split; [discriminate|]; left; eauto).
    all: intros [_ [(q & -> & [= <-] & _)|(_ & H & _)]]; [reflexivity|]; elim H; exists p; auto.
  - assert (X : forall K : res addition_error resources, (let* _ := match w with WPath p => if ex p then Ok tt else Err (AddFileDoesntExist p) | _ => Ok tt end in K) = K).
    { intros K. destruct w as [p| |]; try reflexivity. destruct (ex p) eqn:E; [reflexivity|]. elim M. exists p. auto. }
    assert (NP : forall e p, ~ (e = AddFileDoesntExist p /\ w = WPath p /\ ex p = false)).
    { intros e p (_ & -> & E). apply M. exists p. auto. }
    destruct t; cbn zeta; rewrite ?X; (destruct (sget id (re_images r)) as [x|] eqn:G);
      (split; [split; congruence|]); (split; [intros e|]); split;
      try (intros (? & ?); discriminate); try (intros [H _]; elim H; reflexivity); try discriminate; eauto.
    all: try (intros (_ & _ & H); elim (H x); reflexivity).
    all: try (intros [= <-]; split; [discriminate|]; right; eauto).
    all: try (intros [_ [(q & H)|(-> & _ & y & H)]]; [elim (NP _ _ H)|congruence]).
    all: intros _; split; [discriminate|]; split; [exact M|]; congruence.
Qed.
Print Assumptions C48_outcomes.

(** ** What a call changes *)
Lemma set_retyped t w : retyped t w (set_res_type t w).
Proof. destruct w; reflexivity. Qed.
Lemma retyped_fun t w x y : retyped t w x -> retyped t w y -> x = y.
Proof. destruct w; cbn; congruence. Qed.
Lemma sget_insert {V} k (v : V) k' m : sget k' (sinsert k v m) = if str_eqb k' k then Some v else sget k' m.
Proof. destruct (str_eqb_spec k' k) as [->|N]; [apply sget_insert_same|now apply sget_insert_other]. Qed.
Lemma sget_remove {V} k k' (m : smap V) : sget k' (sremove k m) = if str_eqb k' k then None else sget k' m.
Proof. destruct (str_eqb_spec k' k) as [->|N]; [apply sget_remove_same|now apply sget_remove_other]. Qed.
Lemma put_ok ex id w t r r' : put_resource ex id w t r = Ok r' ->
  r' = match t with
       | RImage => {| re_images := sinsert id (set_res_type t w) (re_images r); re_sounds := re_sounds r; re_fonts := re_fonts r |}
       | RSound => {| re_images := re_images r; re_sounds := sinsert id (set_res_type t w) (re_sounds r); re_fonts := re_fonts r |}
       | RFont => {| re_images := re_images r; re_sounds := re_sounds r; re_fonts := sinsert id (set_res_type t w) (re_fonts r) |}
       | RCustomIcon => r
       end.
Proof.
  unfold put_resource. destruct t; try discriminate; (destruct w as [p| |]; [destruct (ex p); [|discriminate]|..]); cbn [bind]; destruct (smem id (re_images r)); try discriminate;
    intros [= <-]; reflexivity.
Qed.
(** a successful put files the retyped file under the type and id and leaves everything else as it was *)
Theorem C48_put ex id w t r r' : put_resource ex id w t r = Ok r' ->
  forall t' id' w', holds r' t' id' w' <-> (t' = t /\ id' = id /\ retyped t w w') \/ (~ (t' = t /\ id' = id) /\ holds r t' id' w').
Proof.
  intros H t' id' w'. assert (T : t <> RCustomIcon) by (intros ->; discriminate H). apply put_ok in H. subst r'.
  assert (R : retyped t w w' <-> set_res_type t w = w').
  { split; [intros R; eapply retyped_fun; [apply set_retyped|exact R]|intros <-; apply set_retyped]. }
  rewrite R. assert (D : {t' = t} + {t' <> t}) by decide equality. destruct D as [->|D].
  - assert (G : holds match t with
       | RImage => {| re_images := sinsert id (set_res_type t w) (re_images r); re_sounds := re_sounds r; re_fonts := re_fonts r |}
       | RSound => {| re_images := re_images r; re_sounds := sinsert id (set_res_type t w) (re_sounds r); re_fonts := re_fonts r |}
       | RFont => {| re_images := re_images r; re_sounds := re_sounds r; re_fonts := sinsert id (set_res_type t w) (re_fonts r) |}
       | RCustomIcon => r
       end t id' w' <-> if str_eqb id' id then set_res_type t w = w' else holds r t id' w').
    { destruct t; try (now elim T); cbn [holds re_images re_sounds re_fonts]; rewrite sget_insert; destruct (str_eqb id' id); split; congruence. }
    rewrite G. destruct (str_eqb_spec id' id); tauto.
  - transitivity (holds r t' id' w'); [|tauto]. destruct t, t'; try (now elim T); try (now elim D); reflexivity.
Qed.
Print Assumptions C48_put.
(** images hide sounds, sounds hide fonts *)
Theorem C48_get r id :
  (forall w t, get_resource id r = Some (w, t) <-> holds r t id w /\
     (t <> RImage -> forall x, ~ holds r RImage id x) /\ (t = RFont -> forall x, ~ holds r RSound id x)) /\
  (get_resource id r = None <-> ~ taken r id).
Proof.
  unfold get_resource, taken. split.
  - intros w t. destruct (sget id (re_images r)) as [a|] eqn:E1; [|destruct (sget id (re_sounds r)) as [b|] eqn:E2; [|destruct (sget id (re_fonts r)) as [c|] eqn:E3]];
      destruct t; cbn [holds]; rewrite ?E1, ?E2, ?E3; split; intros H; try discriminate H; try (injection H as ->);
      try (repeat split; try congruence; discriminate); destruct H as (H1 & H2 & H3); try contradiction; try discriminate H1; try (injection H1 as ->); try reflexivity;
      try (elim (H2 ltac:(discriminate) a); reflexivity); try (elim (H3 eq_refl b); reflexivity).
  - destruct (sget id (re_images r)) as [a|] eqn:E1; [|destruct (sget id (re_sounds r)) as [b|] eqn:E2; [|destruct (sget id (re_fonts r)) as [c|] eqn:E3]];
      (split; [try discriminate|intros H; try reflexivity; exfalso; apply H]).
    + exists RImage, a. exact E1.
    + exists RSound, b. exact E2.
    + exists RFont, c. exact E3.
    + intros _ (t & w & H). destruct t; cbn in H; congruence.
Qed.
Print Assumptions C48_get.
(** removal answers what [get_resource] answers and removes only that *)
Theorem C48_remove r id : fst (remove_resource id r) = get_resource id r /\
  forall t' id' w', holds (snd (remove_resource id r)) t' id' w' <->
    holds r t' id' w' /\ ~ (id' = id /\ exists w, get_resource id r = Some (w, t')).
Proof.
  unfold remove_resource, get_resource. 
  destruct (sget id (re_images r)) as [a|] eqn:E1; [|destruct (sget id (re_sounds r)) as [b|] eqn:E2; [|destruct (sget id (re_fonts r)) as [c|] eqn:E3]];
    cbn [fst snd]; (split; [reflexivity|]); intros t' id' w'.
  1-3: destruct t'; cbn [holds re_images re_sounds re_fonts]; rewrite ?sget_remove;
    try (split; [intros H; split; [exact H|intros (_ & x & [=])]|tauto]);
    destruct (str_eqb_spec id' id) as [->|N]; split; intros H; try discriminate;
    try (destruct H as [_ H]; elim H; split; [reflexivity|eauto]); try (split; [exact H|tauto]); tauto.
  split; [intros H; split; [exact H|intros (_ & x & [=])]|tauto].
Qed.
Print Assumptions C48_remove.

(** ** The claim *)
(** The claim holds as long as no id is in use for two types and sounds and fonts are not put under an id in use for a
    sound or a font: then a taken id is refused, a put file is found again, a removed one is gone, and the ids stay
    apart. Missing for the full claim: ids in use for a sound or a font (see [C48_refuted]). *)
Theorem C48_partial ex id w t r : one_owner r -> (forall x, ~ holds r RSound id x) -> (forall x, ~ holds r RFont id x) ->
  t <> RCustomIcon -> ~ missing ex w ->
  (taken r id -> put_resource ex id w t r = Err (IdTaken id)) /\
  (~ taken r id -> exists r' w', put_resource ex id w t r = Ok r' /\ one_owner r' /\ retyped t w w' /\ get_resource id r' = Some (w', t)) /\
  (forall id', id' <> id -> forall r', put_resource ex id w t r = Ok r' -> get_resource id' r' = get_resource id' r).
Proof.
  intros O NS NF NT NM. split; [|split].
  - intros (t' & x & H). assert (t' = RImage) as -> by (destruct t'; auto; [elim (NS _ H)|elim (NF _ H)|elim H]).
    apply C48_outcomes. split; [exact NT|]. right. eauto.
  - intros N. destruct (proj2 (proj2 (proj2 (C48_outcomes ex id w t r)))) as (r' & P).
    { split; [exact NT|]. split; [exact NM|]. intros x H. apply N. now exists RImage, x. }
    exists r', (set_res_type t w). split; [exact P|]. pose proof (C48_put _ _ _ _ _ _ P) as Q. split; [|split; [apply set_retyped|]].
    + intros t1 t2 i x1 x2 H1 H2. apply Q in H1, H2. destruct H1 as [(-> & -> & H1)|[D1 H1]], H2 as [(-> & E & H2)|[D2 H2]]; try reflexivity.
      * elim N. now exists t2, x2.
      * subst i. elim N. now exists t1, x1.
      * eapply O; eauto.
    + apply C48_get. split; [|split].
      * apply Q. left. repeat split. apply set_retyped.
      * intros D x H. apply Q in H as [(E & _)|[_ H]]; [congruence|]. apply N. now exists RImage, x.
      * intros D x H. apply Q in H as [(E & _)|[_ H]]; [congruence|]. apply (NS x H).
  - intros id' D r' P. pose proof (C48_put _ _ _ _ _ _ P) as Q.
    assert (S : forall t' x, holds r' t' id' x <-> holds r t' id' x).
    { intros t' x. rewrite Q. split; [intros [(_ & E & _)|[_ H]]; [contradiction|exact H]|]. intros H. right. split; [tauto|exact H]. }
    destruct (get_resource id' r) as [[y u]|] eqn:G.
    + apply C48_get in G as (G1 & G2 & G3). apply C48_get. split; [now apply S|]. split; intros E x H; apply S in H; [now apply (G2 E x)|now apply (G3 E x)].
    + apply C48_get in G. apply C48_get. intros (t' & x & H). apply G. exists t', x. now apply S.
Qed.
Print Assumptions C48_partial.
(** removal from such resources: the id is free afterwards, the others answer as before *)
Theorem C48_remove_one r id : one_owner r ->
  one_owner (snd (remove_resource id r)) /\ get_resource id (snd (remove_resource id r)) = None /\
  forall id', id' <> id -> get_resource id' (snd (remove_resource id r)) = get_resource id' r.
Proof.
  intros O. destruct (C48_remove r id) as [_ R]. split; [|split].
  - intros t t' i x x' H H'. apply R in H as [H _], H' as [H' _]. eapply O; eauto.
  - apply C48_get. intros (t & w & H). apply R in H as [H N]. apply N. split; [reflexivity|].
    destruct (get_resource id r) as [[x u]|] eqn:G.
    + exists x. f_equal. f_equal. apply C48_get in G as [G _]. eapply O; eauto.
    + apply C48_get in G. elim G. now exists t, w.
  - intros id' D.
    assert (S : forall t' x, holds (snd (remove_resource id r)) t' id' x <-> holds r t' id' x) by (intros t' x; rewrite R; tauto).
    destruct (get_resource id' r) as [[y u]|] eqn:G.
    + apply C48_get in G as (G1 & G2 & G3). apply C48_get. split; [now apply S|]. split; intros E x H; apply S in H; [now apply (G2 E x)|now apply (G3 E x)].
    + apply C48_get in G. apply C48_get. intros (t' & x & H). apply G. exists t', x. now apply S.
Qed.
Print Assumptions C48_remove_one.
(** An id in use for a sound is not refused: a second sound replaces the first, a font is stored but never found, an
    image hides the sound. *)
Theorem C48_refuted ex id w1 w2 : ~ missing ex w1 -> ~ missing ex w2 ->
  exists r1, put_resource ex id w1 RSound resources_empty = Ok r1 /\ get_resource id r1 = Some (set_res_type RSound w1, RSound) /\
    (exists r2, put_resource ex id w2 RSound r1 = Ok r2 /\ get_resource id r2 = Some (set_res_type RSound w2, RSound)) /\
    (exists r2, put_resource ex id w2 RFont r1 = Ok r2 /\ get_resource id r2 = Some (set_res_type RSound w1, RSound)) /\
    (exists r2, put_resource ex id w2 RImage r1 = Ok r2 /\ get_resource id r2 = Some (set_res_type RImage w2, RImage)).
Proof.
  intros M1 M2.
  assert (OK : forall w t r, t <> RCustomIcon -> ~ missing ex w -> re_images r = [] -> exists r', put_resource ex id w t r = Ok r').
  { intros w t r T M E. apply C48_outcomes. split; [exact T|]. split; [exact M|]. cbn. rewrite E. discriminate. }
  destruct (OK w1 RSound resources_empty) as (r1 & P1); [discriminate|exact M1|reflexivity|]. exists r1. split; [exact P1|]. apply put_ok in P1. subst r1.
  split; [reflexivity || (unfold get_resource; cbn [re_images re_sounds]; rewrite sget_insert_same; reflexivity)|].
  split; [|split].
  - match goal with |- exists r2, put_resource _ _ _ _ ?r = _ /\ _ => destruct (OK w2 RSound r) as (r2 & P2); [discriminate|exact M2|reflexivity|] end.
    exists r2. split; [exact P2|]. apply put_ok in P2. subst r2. unfold get_resource. cbn [re_images re_sounds resources_empty sget]. rewrite sget_insert_same. reflexivity.
  - match goal with |- exists r2, put_resource _ _ _ _ ?r = _ /\ _ => destruct (OK w2 RFont r) as (r2 & P2); [discriminate|exact M2|reflexivity|] end.
    exists r2. split; [exact P2|]. apply put_ok in P2. subst r2. unfold get_resource. cbn [re_images re_sounds resources_empty]. rewrite sget_insert_same. reflexivity.
  - match goal with |- exists r2, put_resource _ _ _ _ ?r = _ /\ _ => destruct (OK w2 RImage r) as (r2 & P2); [discriminate|exact M2|reflexivity|] end.
    exists r2. split; [exact P2|]. apply put_ok in P2. subst r2. unfold get_resource. cbn [re_images]. rewrite sget_insert_same. reflexivity.
Qed.
Print Assumptions C48_refuted.

(** all sequences of calls that put nothing but images: a map that never overwrites *)
Inductive call := Put (id : str) (w : res_wrapper) | Remove (id : str).
Definition step (ex : str -> bool) (r : resources) (c : call) : resources :=
  match c with
  | Put id w => match put_resource ex id w RImage r with Ok r' => r' | _ => r end
  | Remove id => snd (remove_resource id r)
  end.
(** the map of a sequence of calls, later calls first *)
Fixpoint image_map (ex : str -> bool) (past : list call) (id : str) : option res_wrapper :=
  match past with
  | [] => None
  | Put id' w :: r =>
    if str_eqb id id'
    then match image_map ex r id with
         | Some old => Some old
         | None => match w with
                   | WPath p => if ex p then Some w else None
                   | WStringId i n _ => Some (WStringId i n RImage)
                   | WU32Id i n _ => Some (WU32Id i n RImage)
                   end
         end
    else image_map ex r id
  | Remove id' :: r => if str_eqb id id' then None else image_map ex r id
  end.
Theorem C48_image_histories ex calls id :
  get_resource id (fold_left (step ex) calls resources_empty) = option_map (fun w => (w, RImage)) (image_map ex (rev calls) id).
Proof.
  assert (G : forall r id, re_sounds r = [] -> re_fonts r = [] -> get_resource id r = option_map (fun w => (w, RImage)) (sget id (re_images r))).
  { intros r i E1 E2. unfold get_resource. rewrite E1, E2. destruct (sget i (re_images r)); reflexivity. }
  enough (X : let r := fold_left (step ex) calls resources_empty in
    re_sounds r = [] /\ re_fonts r = [] /\ forall id, sget id (re_images r) = image_map ex (rev calls) id).
  { destruct X as (E1 & E2 & E3). now rewrite G, E3. }
  induction calls as [|c calls IH] using rev_ind; [repeat split|]. cbv zeta in *. rewrite fold_left_app, rev_app_distr. cbn [fold_left rev app].
  destruct IH as (E1 & E2 & E3). set (r := fold_left (step ex) calls resources_empty) in *. destruct c as [i w|i]; cbn [step image_map].
  - assert (SM : smem i (re_images r) = match image_map ex (rev calls) i with Some _ => true | None => false end) by (rewrite <- E3; reflexivity).
    destruct (put_resource ex i w RImage r) as [r'| |] eqn:P.
    + assert (NI : image_map ex (rev calls) i = None).
      { destruct (image_map ex (rev calls) i) eqn:Q; [|reflexivity]. exfalso. unfold put_resource in P. rewrite SM in P. destruct w as [p| |]; [destruct (ex p)|..]; discriminate. }
      assert (NM : match w with WPath p => ex p = true | _ => True end).
      { destruct w as [p| |]; auto. cbn in P. destruct (ex p); [reflexivity|discriminate]. }
      apply put_ok in P. subst r'. cbn [re_sounds re_fonts re_images]. split; [exact E1|]. split; [exact E2|]. intros k. rewrite sget_insert, E3.
      destruct (str_eqb_spec k i) as [->|N]; [|reflexivity]. rewrite NI. destruct w as [p| |]; cbn; [now rewrite NM|reflexivity|reflexivity].
    + split; [exact E1|]. split; [exact E2|]. intros k. rewrite E3. destruct (str_eqb_spec k i) as [->|N]; [|reflexivity].
      destruct (image_map ex (rev calls) i) eqn:Q; [reflexivity|]. unfold put_resource in P. rewrite SM in P. cbv zeta in P.
      destruct w as [p| |]; [|cbn in P; discriminate..]. cbn in P. destruct (ex p); [discriminate|reflexivity].
    + exfalso. apply C48_outcomes in P. discriminate.
  - unfold remove_resource. rewrite E1, E2. cbn [sget lget]. pose proof (E3 i) as Ei. destruct (sget i (re_images r)) as [w|] eqn:Q; cbn [snd re_sounds re_fonts re_images].
    + repeat split; auto. intros k. rewrite sget_remove, E3. reflexivity.
    + repeat split; auto. intros k. rewrite E3. destruct (str_eqb_spec k i) as [->|N]; [congruence|reflexivity].
Qed.
Print Assumptions C48_image_histories.

Definition exf (p : str) : bool := str_eqb p (lit "/images/a.png").
Definition ex_res : resources :=
  {| re_images := [(lit "a", WPath (lit "/images/a.png"))]; re_sounds := [(lit "b", WU32Id 7 (lit "b.mp3") RSound)]; re_fonts := [] |}.
Example C48_example :
  bind (put_resource exf (lit "a") (WPath (lit "/images/a.png")) RImage resources_empty)
    (put_resource exf (lit "b") (WU32Id 7 (lit "b.mp3") RFont) RSound) = Ok ex_res /\
  get_resource (lit "a") ex_res = Some (WPath (lit "/images/a.png"), RImage) /\
  get_resource (lit "b") ex_res = Some (WU32Id 7 (lit "b.mp3") RSound, RSound) /\
  put_resource exf (lit "a") (WU32Id 8 (lit "x.png") RImage) RImage ex_res = Err (IdTaken (lit "a")) /\
  put_resource exf (lit "c") (WPath (lit "/images/c.png")) RImage ex_res = Err (AddFileDoesntExist (lit "/images/c.png")) /\
  get_resource (lit "a") (snd (remove_resource (lit "a") ex_res)) = None /\ one_owner ex_res.
Proof.
  do 6 (split; [vm_compute; reflexivity|]). intros t t' id w w' H H'. unfold ex_res in *.
  assert (A : forall x, sget id [(lit "a", WPath (lit "/images/a.png"))] = Some x -> id = lit "a").
  { intros x E. apply sget_some_in in E. destruct E as [E|[]]. congruence. }
  assert (B : forall x, sget id [(lit "b", WU32Id 7 (lit "b.mp3") RSound)] = Some x -> id = lit "b").
  { intros x E. apply sget_some_in in E. destruct E as [E|[]]. congruence. }
  destruct t, t'; try contradiction; try reflexivity; try discriminate H; try discriminate H'; exfalso.
  - apply A in H. apply B in H'. rewrite H in H'. discriminate H'.
  - apply B in H. apply A in H'. rewrite H in H'. discriminate H'.
Qed.
