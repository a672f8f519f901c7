(** Proofs about resource files ([M_Raw.v]). *)
From Coq Require Import Permutation.
From Verif Require Import Base Spec Str Crypto Utf8 M_Raw.

(** which type and name a wrapper is filed under *)
Inductive wrapper_class (ex : str -> bool) : res_wrapper -> res_type -> str -> Prop :=
| wc_path p pre folder mid name t :
    ex p = true -> components p = pre ++ [Normal folder; mid; Normal name] -> mid <> RootDir ->
    In (folder, t) [(lit "images", RImage); (lit "sounds", RSound); (lit "fonts", RFont); (lit "icons", RCustomIcon)] ->
    wrapper_class ex (WPath p) t name
| wc_string id name t : wrapper_class ex (WStringId id name t) t name
| wc_u32 id name t : wrapper_class ex (WU32Id id name t) t name.
Definition rf_of (t : res_type) (r : res_files) : smap res_wrapper :=
  match t with
  | RImage => rf_images r | RSound => rf_sounds r | RFont => rf_fonts r
  | RCustomIcon => []
  end.

Lemma parent_of_snoc cs c : c <> RootDir -> parent_of (cs ++ [c]) = Some cs.
Proof. intros H. unfold parent_of. rewrite rev_app_distr. cbn. rewrite rev_involutive. destruct c; congruence. Qed.
Lemma parent_of_inv cs p : parent_of cs = Some p -> exists c, cs = p ++ [c] /\ c <> RootDir.
Proof.
  unfold parent_of. intros H. pose proof (rev_involutive cs) as E. destruct (rev cs) as [|c r]; [discriminate|].
  cbn [rev] in E. exists c. destruct c; try discriminate; injection H as <-; split; auto; discriminate.
Qed.
Lemma file_name_inv cs n : file_name_of cs = Some n <-> exists p, cs = p ++ [Normal n].
Proof.
  unfold file_name_of. split.
  - intros H. pose proof (rev_involutive cs) as E. destruct (rev cs) as [|c r]; [discriminate|].
    cbn [rev] in E. destruct c; try discriminate. injection H as <-. eauto.
  - intros [p ->]. rewrite rev_app_distr. reflexivity.
Qed.
Lemma type_of_folder_in f t : type_of_folder f = Some t <->
  In (f, t) [(lit "images", RImage); (lit "sounds", RSound); (lit "fonts", RFont); (lit "icons", RCustomIcon)].
Proof.
  unfold type_of_folder. split.
  - destruct (str_eqb f (lit "images")) eqn:E1; [apply str_eqb_eq in E1; intros [= <-]; subst; cbn; auto|].
    destruct (str_eqb f (lit "sounds")) eqn:E2; [apply str_eqb_eq in E2; intros [= <-]; subst; cbn; auto|].
    destruct (str_eqb f (lit "fonts")) eqn:E3; [apply str_eqb_eq in E3; intros [= <-]; subst; cbn; auto|].
    destruct (str_eqb f (lit "icons")) eqn:E4; [apply str_eqb_eq in E4; intros [= <-]; subst; cbn; auto|]. discriminate.
  - cbn [In]. intros [E|[E|[E|[E|[]]]]]; injection E as <- <-; reflexivity.
Qed.
Lemma rf_step_ok ex r w r' : rf_step ex r w = Ok r' <-> exists t n, wrapper_class ex w t n /\ r' = rf_put t n w r.
Proof.
  destruct w as [p|i n t|i n t]; cbn [rf_step].
  - split.
    + destruct (ex p) eqn:Ex; [|discriminate]. cbn [negb].
      destruct (parent_of (components p)) as [p1|] eqn:E1; [|discriminate]. cbn [ok_or bind].
      destruct (parent_of p1) as [p2|] eqn:E2; [|discriminate]. cbn [ok_or bind].
      destruct (file_name_of p2) as [fo|] eqn:E3; [|discriminate]. cbn [ok_or bind].
      destruct (file_name_of (components p)) as [na|] eqn:E4; [|discriminate]. cbn [ok_or bind].
      destruct (type_of_folder fo) as [t|] eqn:E5; [|discriminate]. cbn [ok_or bind]. intros [= <-].
      exists t, na. split; auto.
      apply parent_of_inv in E1 as (c1 & E1 & _). apply parent_of_inv in E2 as (c2 & -> & Hc2).
      apply file_name_inv in E3 as (p3 & ->). apply file_name_inv in E4 as (q & E4).
      rewrite E1 in E4. apply app_inj_tail in E4 as [_ ->].
      apply (wc_path ex p p3 fo c2 na t); auto.
      * rewrite E1, <- !app_assoc. reflexivity.
      * now apply type_of_folder_in.
    + intros (t & n & H & ->). inversion H as [p' pre folder mid name t' Ex Ec Em Ei| |]; subst. rewrite Ex. cbn [negb].
      assert (P1 : parent_of (components p) = Some (pre ++ [Normal folder; mid])).
      { rewrite Ec. change [Normal folder; mid; Normal n] with ([Normal folder; mid] ++ [Normal n]). rewrite app_assoc.
        apply parent_of_snoc. discriminate. }
      assert (P2 : parent_of (pre ++ [Normal folder; mid]) = Some (pre ++ [Normal folder])).
      { change [Normal folder; mid] with ([Normal folder] ++ [mid]). rewrite app_assoc. now apply parent_of_snoc. }
      rewrite P1. cbn [ok_or bind]. rewrite P2. cbn [ok_or bind].
      assert (F1 : file_name_of (pre ++ [Normal folder]) = Some folder) by (apply file_name_inv; eauto).
      assert (F2 : file_name_of (components p) = Some n).
      { apply file_name_inv. exists (pre ++ [Normal folder; mid]). rewrite Ec, <- app_assoc. reflexivity. }
      rewrite F1. cbn [ok_or bind]. rewrite F2. cbn [ok_or bind]. apply type_of_folder_in in Ei. now rewrite Ei.
  - split; [intros [= <-]; exists t, n; split; [constructor|auto]|].
    intros (t' & n' & H & ->). inversion H; subst. reflexivity.
  - split; [intros [= <-]; exists t, n; split; [constructor|auto]|].
    intros (t' & n' & H & ->). inversion H; subst. reflexivity.
Qed.
Lemma wrapper_class_fun ex w t n t' n' : wrapper_class ex w t n -> wrapper_class ex w t' n' -> t = t' /\ n = n'.
Proof.
  intros H H'. assert (A : rf_step ex res_files_default w = Ok (rf_put t n w res_files_default)) by (apply rf_step_ok; eauto).
  assert (B : rf_step ex res_files_default w = Ok (rf_put t' n' w res_files_default)) by (apply rf_step_ok; eauto).
  rewrite A in B. injection B as B. destruct t, t'; cbn in B; try discriminate B; split; auto.
  all: try (now injection B).
  inversion H; subst; inversion H'; subst; auto.
  match goal with A : components ?p = _, B : components ?p = _ |- _ => rewrite A in B; rename B into E end.
  apply (f_equal (@rev comp)) in E. rewrite !rev_app_distr in E. cbn in E. now injection E.
Qed.
Lemma rf_step_nopanic ex r w : rf_step ex r w <> Panic.
Proof.
  destruct w; cbn [rf_step]; try discriminate. destruct (negb (ex path)); [discriminate|].
  destruct (parent_of (components path)); [|discriminate]. cbn [ok_or bind].
  destruct (parent_of l); [|discriminate]. cbn [ok_or bind].
  destruct (file_name_of l0); [|discriminate]. cbn [ok_or bind].
  destruct (file_name_of (components path)); [|discriminate]. cbn [ok_or bind].
  destruct (type_of_folder l1); discriminate.
Qed.
Lemma rf_collect_nopanic ex ws r : rf_collect ex ws r <> Panic.
Proof.
  revert r; induction ws as [|w ws IH]; intros r; cbn [rf_collect]; [discriminate|].
  pose proof (rf_step_nopanic ex r w). destruct (rf_step ex r w); cbn [bind]; auto; discriminate.
Qed.
Lemma rf_collect_defined ex ws r : (exists r', rf_collect ex ws r = Ok r') <->
  Forall (fun w => exists t n, wrapper_class ex w t n) ws.
Proof.
  revert r; induction ws as [|w ws IH]; intros r; cbn [rf_collect]; [split; eauto|].
  rewrite Forall_cons_iff, <- (IH (match rf_step ex r w with Ok r1 => r1 | _ => r end)).
  destruct (rf_step ex r w) as [r1|e|] eqn:E; cbn [bind].
  - split; [|intros [_ H]; auto]. intros H. split; auto. apply rf_step_ok in E as (t & n & C & _). eauto.
  - split; [intros [? ?]; discriminate|]. intros [(t & n & C) _].
    assert (rf_step ex r w = Ok (rf_put t n w r)) by (apply rf_step_ok; eauto). congruence.
  - now apply rf_step_nopanic in E.
Qed.
Lemma is_last_snoc {A} (P : A -> Prop) l w x : (P w \/ ~ P w) ->
  (is_last P (l ++ [w]) x <-> (P w /\ x = w) \/ (~ P w /\ is_last P l x)).
Proof.
  intros D. split.
  - intros (a & b & E & Px & Hb).
    destruct b as [|y b] using rev_ind.
    + apply app_inj_tail in E as [-> ->]. auto.
    + clear IHb. rewrite app_comm_cons, app_assoc in E. apply app_inj_tail in E as [-> ->].
      right. split; [apply Hb; apply in_or_app; right; now left|]. exists a, b. repeat split; auto.
      intros z Hz. apply Hb. apply in_or_app. now left.
  - intros [[Pw ->]|[Pw (a & b & -> & Px & Hb)]].
    + exists l, []. repeat split; auto.
    + exists a, (b ++ [w]). rewrite <- app_assoc. repeat split; auto. intros y Hy. apply in_app_or in Hy as [Hy|[<-|[]]]; auto.
Qed.
Lemma rf_collect_snoc ex ws w r : rf_collect ex (ws ++ [w]) r = let* r' := rf_collect ex ws r in rf_step ex r' w.
Proof.
  revert r; induction ws as [|x ws IH]; intros r; cbn [rf_collect app bind].
  - destruct (rf_step ex r w); reflexivity.
  - destruct (rf_step ex r x); cbn [bind]; auto.
Qed.
Lemma class_dec ex w t n t' n' : wrapper_class ex w t' n' -> wrapper_class ex w t n \/ ~ wrapper_class ex w t n.
Proof.
  intros H. destruct (str_eqb n n') eqn:En.
  - apply str_eqb_eq in En. subst n'.
    assert (D : {t = t'} + {t <> t'}) by decide equality. destruct D as [->|D]; auto.
    right. intros H2. now destruct (wrapper_class_fun _ _ _ _ _ _ H H2) as [E _]; subst.
  - right. intros H2. destruct (wrapper_class_fun _ _ _ _ _ _ H H2) as [_ <-]. now rewrite str_eqb_refl in En.
Qed.
Definition filed (r : res_files) (t : res_type) (n : str) (w : res_wrapper) : Prop :=
  t <> RCustomIcon /\ sget n (rf_of t r) = Some w.
Lemma rf_of_put t t' n w r : t <> RCustomIcon ->
  rf_of t (rf_put t' n w r) = if (match t, t' with RImage, RImage | RSound, RSound | RFont, RFont => true | _, _ => false end)
                              then sinsert n w (rf_of t r) else rf_of t r.
Proof. intros H. destruct t, t'; auto; congruence. Qed.
Lemma collect_filed ex ws r : res_files_try_from ex ws = Ok r ->
  (forall t n w, t <> RCustomIcon -> (sget n (rf_of t r) = Some w <-> is_last (fun w => wrapper_class ex w t n) ws w)) /\
  (forall w, rf_custom_icon r = Some w <-> is_last (fun w => exists n, wrapper_class ex w RCustomIcon n) ws w) /\
  (forall t, NoDup (map fst (rf_of t r))).
Proof.
  unfold res_files_try_from. revert r. induction ws as [|w0 ws IH] using rev_ind; intros r.
  - cbn [rf_collect]. intros [= <-]. split; [|split].
    + intros t n w Ht. split; [destruct t; discriminate|]. intros ([|] & b & E & _); discriminate.
    + intros w. split; [discriminate|]. intros ([|] & b & E & _); discriminate.
    + intros []; constructor.
  - rewrite rf_collect_snoc. destruct (rf_collect ex ws res_files_default) as [r1|e|]; try discriminate. cbn [bind].
    intros H. apply rf_step_ok in H as (t0 & n0 & C & ->). destruct (IH r1 eq_refl) as (I1 & I2 & I3). split; [|split].
    + intros t n w Ht. rewrite is_last_snoc by (eapply class_dec; eauto).
      rewrite rf_of_put by auto.
      destruct (match t, t0 with RImage, RImage | RSound, RSound | RFont, RFont => true | _, _ => false end) eqn:Et.
      * assert (t0 = t) by (destruct t, t0; congruence). subst t0.
        destruct (str_eqb n n0) eqn:En.
        -- apply str_eqb_eq in En. subst n0. rewrite sget_insert_same. split.
           ++ intros [= <-]. auto.
           ++ intros [[_ ->]|[? _]]; [auto|contradiction].
        -- assert (n <> n0) by (intros ->; now rewrite str_eqb_refl in En). rewrite sget_insert_other by auto.
           rewrite I1 by auto. split; [intros L; right; split; auto|].
           ++ intros C2. destruct (wrapper_class_fun _ _ _ _ _ _ C C2); congruence.
           ++ intros [[C2 _]|[_ L]]; auto. destruct (wrapper_class_fun _ _ _ _ _ _ C C2); congruence.
      * assert (t0 <> t) by (destruct t, t0; congruence). rewrite I1 by auto. split; [intros L; right; split; auto|].
        -- intros C2. destruct (wrapper_class_fun _ _ _ _ _ _ C C2); congruence.
        -- intros [[C2 _]|[_ L]]; auto. destruct (wrapper_class_fun _ _ _ _ _ _ C C2); congruence.
    + intros w. 
      assert (D : (exists n, wrapper_class ex w0 RCustomIcon n) \/ ~ (exists n, wrapper_class ex w0 RCustomIcon n)).
      { destruct t0; try (right; intros [n C2]; destruct (wrapper_class_fun _ _ _ _ _ _ C C2); congruence). left. eauto. }
      rewrite is_last_snoc by auto.
      destruct t0; cbn [rf_put rf_custom_icon]; rewrite ?I2.
      4:{ split; [intros [= <-]; left; split; eauto|]. intros [[_ ->]|[N _]]; auto. destruct N. eauto. }
      all: (split; [intros L; right; split; auto; intros [n C2]; destruct (wrapper_class_fun _ _ _ _ _ _ C C2); congruence|]).
      all: intros [[[n C2] _]|[_ L]]; auto; destruct (wrapper_class_fun _ _ _ _ _ _ C C2); congruence.
    + intros t. assert (Dt : t = RCustomIcon \/ t <> RCustomIcon) by (destruct t; auto; right; discriminate).
      destruct Dt as [->|Ht]; [constructor|]. rewrite rf_of_put by auto. destruct (match t, t0 with RImage, RImage | RSound, RSound | RFont, RFont => true | _, _ => false end); auto.
      apply sinsert_nodup. auto.
Qed.
Lemma in_vals {V} (m : smap V) w : NoDup (map fst m) -> (In w (map snd m) <-> exists n, sget n m = Some w).
Proof.
  intros H. split.
  - intros Hin. apply in_map_iff in Hin as ([n w'] & <- & Hin). exists n. now apply sget_in.
  - intros [n E]. apply sget_some_in in E. apply in_map_iff. exists (n, w). auto.
Qed.
