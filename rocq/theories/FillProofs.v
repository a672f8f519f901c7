(** Proofs about filling in arguments and blocks ([A_Block.apply_args], [A_Block.apply_blocks]). *)
From Verif Require Import Base Str Dec Flt SpecNumber SpecBlock SpecFill A_Block BlockContentProofs BlockProofs BlockFailProofs.

(** ** Texts *)
Lemma is_empty_dec (a : argument ablock) : is_empty a \/ ~ is_empty a.
Proof. destruct a as [n v|n v|n v|n v]; destruct v; cbn [is_empty]; auto; right; discriminate. Qed.
Lemma apply_kept (a : argument ablock) ts : ~ is_empty a -> apply_arg a ts = Ok (a, ts).
Proof. intros H. destruct a as [n v|n v|n v|n v]; destruct v; cbn [is_empty] in H; try reflexivity; now destruct H. Qed.
Lemma filled_empty a t b : filled_by a t b -> is_empty a.
Proof. intros H. now inversion H; subst. Qed.
Lemma value_step {T X} (f : str -> res content_error T) (t : str) (ts : list str) (k : arg_value ablock T -> X) x r :
  (let* (w, r) := (let* w := value_or_block f t in Ok (w, ts)) in Ok (k w, r)) = Ok (x, r) <-> exists w, value_or_block f t = Ok w /\ x = k w /\ r = ts.
Proof.
  destruct (value_or_block f t) as [w| |]; cbn [bind]; split; try discriminate.
  - intros [= <- <-]. eauto.
  - intros (w' & [= <-] & -> & ->). reflexivity.
  - intros (w' & [=] & _).
  - intros (w' & [=] & _).
Qed.
Lemma open_ok a t ts b r : is_empty a -> apply_arg a (t :: ts) = Ok (b, r) <-> filled_by a t b /\ r = ts.
Proof.
  intros H. destruct a as [n v|n v|n v|n v]; cbn [is_empty] in H; subst v; cbn [apply_arg apply_value take_arg bind]; rewrite value_step.
  - split.
    + intros (w & E & -> & ->). split; [|reflexivity]. constructor. now apply (value_or_block_iff Ok eq _ _ id_arg_iff).
    + intros (F & ->). inversion F as [? ? v R| | |]; subst. exists v. split; [now apply (value_or_block_iff Ok eq _ _ id_arg_iff)|auto].
  - split.
    + intros (w & E & -> & ->). split; [|reflexivity]. constructor. now apply (value_or_block_iff number_arg number_text _ _ number_arg_iff).
    + intros (F & ->). inversion F as [|? ? v R| |]; subst. exists v. split; [now apply (value_or_block_iff number_arg number_text _ _ number_arg_iff)|auto].
  - split.
    + intros (w & E & -> & ->). split; [|reflexivity]. constructor. now apply (value_or_block_iff boolean_arg boolean_text _ _ boolean_arg_iff).
    + intros (F & ->). inversion F as [| |? ? v R|]; subst. exists v. split; [now apply (value_or_block_iff boolean_arg boolean_text _ _ boolean_arg_iff)|auto].
  - split.
    + intros (w & E & -> & ->). split; [|reflexivity]. constructor. now apply (value_or_block_iff Ok eq _ _ id_arg_iff).
    + intros (F & ->). inversion F as [| | |? ? v R]; subst. exists v. split; [now apply (value_or_block_iff Ok eq _ _ id_arg_iff)|auto].
Qed.
Lemma value_fails {T X} (f : str -> res content_error T) (t : str) (ts : list str) (k : arg_value ablock T -> X) e :
  (let* (w, r) := (let* w := value_or_block f t in Ok (w, ts)) in Ok (k w, r)) = Err e <-> @value_or_block ablock T f t = Err e.
Proof. destruct (@value_or_block ablock T f t) as [w| |]; cbn [bind]; split; congruence. Qed.
Lemma open_err a ts e : is_empty a -> apply_arg a ts = Err e <-> unfit a ts e.
Proof.
  intros H. destruct ts as [|t ts].
  - split.
    + intros E. assert (e = CeRanOutOfArgs) as ->; [|now constructor].
      destruct a as [n v|n v|n v|n v]; cbn [is_empty] in H; subst v; cbn in E; congruence.
    + intros U. inversion U; subst. destruct a as [n v|n v|n v|n v]; cbn [is_empty] in H; subst v; reflexivity.
  - destruct a as [n v|n v|n v|n v]; cbn [is_empty] in H; subst v; cbn [apply_arg apply_value take_arg bind]; rewrite value_fails, value_or_block_err.
    + split.
      * intros [(r & -> & P & ->)|(_ & [=])]. now constructor.
      * intros U. inversion U; subst. left. eauto.
    + rewrite number_err. split.
      * intros [(r & -> & P & ->)|(K & V & ->)]; now constructor.
      * intros U. inversion U; subst; [left; eauto|right; auto].
    + rewrite boolean_err. split.
      * intros [(r & -> & P & ->)|(K & V & ->)]; now constructor.
      * intros U. inversion U; subst; [left; eauto|right; auto].
    + split.
      * intros [(r & -> & P & ->)|(_ & [=])]. now constructor.
      * intros U. inversion U; subst. left. eauto.
Qed.
Lemma number_nopanic x : number_arg x <> Panic.
Proof. unfold number_arg. destruct (parse_f64 x); discriminate. Qed.
Lemma boolean_nopanic x : boolean_arg x <> Panic.
Proof. unfold boolean_arg. destruct (parse_bool x); discriminate. Qed.
Lemma text_nopanic x : @Ok content_error str x <> Panic.
Proof. discriminate. Qed.
Lemma apply_arg_nopanic (a : argument ablock) ts : apply_arg a ts <> Panic.
Proof.
  destruct (is_empty_dec a) as [H|H]; [|rewrite (apply_kept _ _ H); discriminate].
  destruct ts as [|t ts]; destruct a as [n v|n v|n v|n v]; cbn [is_empty] in H; subst v; cbn [apply_arg apply_value take_arg bind]; try discriminate.
  - pose proof (@value_or_block_nopanic ablock _ Ok t text_nopanic). destruct (@value_or_block ablock _ Ok t); cbn; congruence.
  - pose proof (@value_or_block_nopanic ablock _ number_arg t number_nopanic). destruct (@value_or_block ablock _ number_arg t); cbn; congruence.
  - pose proof (@value_or_block_nopanic ablock _ boolean_arg t boolean_nopanic). destruct (@value_or_block ablock _ boolean_arg t); cbn; congruence.
  - pose proof (@value_or_block_nopanic ablock _ Ok t text_nopanic). destruct (@value_or_block ablock _ Ok t); cbn; congruence.
Qed.
Lemma apply_args_nopanic (is : list (spec_item ablock)) ts : apply_args is ts <> Panic.
Proof.
  revert ts. induction is as [|[s|a] is IH]; intros ts; cbn [apply_args]; [discriminate| |].
  - specialize (IH ts). destruct (apply_args is ts); cbn; congruence.
  - pose proof (apply_arg_nopanic a ts). destruct (apply_arg a ts) as [[b r]| |]; cbn [bind]; try congruence.
    specialize (IH r). destruct (apply_args is r); cbn; congruence.
Qed.
Lemma apply_args_ok is ts js : apply_args is ts = Ok js <-> exists used rest, ts = used ++ rest /\ fills is used js.
Proof.
  revert ts js. induction is as [|[s|a] is IH]; intros ts js; cbn [apply_args].
  - split; [intros [= <-]; exists [], ts; split; [reflexivity|constructor]|]. intros (u & r & _ & F). now inversion F.
  - split.
    + destruct (apply_args is ts) as [js'| |] eqn:E; cbn [bind]; try discriminate. intros [= <-]. apply IH in E as (u & r & -> & F).
      exists u, r. split; [reflexivity|now constructor].
    + intros (u & r & -> & F). inversion F as [|? ? ? js' F'| |]; subst. replace (apply_args is (u ++ r)) with (@Ok content_error _ js'); [reflexivity|].
      symmetry. apply IH. eauto.
  - destruct (is_empty_dec a) as [H|H].
    + split.
      * destruct ts as [|t ts]; [destruct a as [n v|n v|n v|n v]; cbn [is_empty] in H; subst v; discriminate|].
        destruct (apply_arg a (t :: ts)) as [[b r]| |] eqn:A; cbn [bind]; try discriminate. apply (proj1 (open_ok _ _ _ _ _ H)) in A as (F & ->).
        destruct (apply_args is ts) as [js'| |] eqn:E; cbn [bind]; try discriminate. intros [= <-]. apply IH in E as (u & r & -> & G).
        exists (t :: u), r. split; [reflexivity|now apply fills_open].
      * intros (u & r & -> & F). inversion F as [| |? ? ? ? K|? t b ? u' js' F1 F2]; subst; [contradiction|]. cbn [app].
        replace (apply_arg a (t :: u' ++ r)) with (@Ok content_error _ (b, u' ++ r)) by (symmetry; apply open_ok; auto). cbn [bind].
        replace (apply_args is (u' ++ r)) with (@Ok content_error _ js'); [reflexivity|]. symmetry. apply IH. eauto.
    + rewrite (apply_kept _ _ H). cbn [bind]. split.
      * destruct (apply_args is ts) as [js'| |] eqn:E; cbn [bind]; try discriminate. intros [= <-]. apply IH in E as (u & r & -> & F).
        exists u, r. split; [reflexivity|now constructor].
      * intros (u & r & -> & F). inversion F as [| |? ? ? js' K F'|? ? ? ? ? ? F1]; subst; [|now apply filled_empty in F1].
        replace (apply_args is (u ++ r)) with (@Ok content_error _ js'); [reflexivity|]. symmetry. apply IH. eauto.
Qed.
Lemma apply_args_err is ts e : apply_args is ts = Err e <-> fill_fails is ts e.
Proof.
  unfold fill_fails. revert ts. induction is as [|[s|a] is IH]; intros ts; cbn [apply_args].
  - split; [discriminate|]. intros (before & a & after & u & r & js & E & _). destruct before; discriminate.
  - split.
    + destruct (apply_args is ts) as [js'|e'|] eqn:E; cbn [bind]; try discriminate. intros [= ->].
      apply IH in E as (before & a & after & u & r & js & -> & -> & F & U). exists (SText s :: before), a, after, u, r, (SText s :: js).
      repeat split; [now constructor|exact U].
    + intros (before & a & after & u & r & js & E & -> & F & U). destruct before as [|i before]; [discriminate|]. cbn [app] in E. injection E as <- E. subst is.
      inversion F as [|? ? ? js' F'| |]; subst. replace (apply_args (before ++ SParam a :: after) (u ++ r)) with (@Err content_error (list (spec_item ablock)) e); [reflexivity|].
      symmetry. apply IH. exists before, a, after, u, r, js'. auto.
  - destruct (apply_arg a ts) as [[b r]|e'|] eqn:A; cbn [bind]; [| |now apply apply_arg_nopanic in A].
    + split.
      * destruct (apply_args is r) as [js'|e'|] eqn:E; cbn [bind]; try discriminate. intros [= ->].
        apply IH in E as (before & a' & after & u & r' & js & -> & -> & F & U). destruct (is_empty_dec a) as [H|H].
        -- destruct ts as [|t ts]; [destruct a as [n v|n v|n v|n v]; cbn [is_empty] in H; subst v; discriminate|].
           apply (proj1 (open_ok _ _ _ _ _ H)) in A as (A & <-). exists (SParam a :: before), a', after, (t :: u), r', (SParam b :: js).
           repeat split; [now apply fills_open|exact U].
        -- rewrite (apply_kept _ _ H) in A. injection A as <- ->. exists (SParam a :: before), a', after, u, r', (SParam a :: js).
           repeat split; [now apply fills_kept|exact U].
      * intros (before & a' & after & u & r' & js & E & -> & F & U). destruct before as [|i before]; cbn [app] in E; injection E as E1 E2.
        -- subst a' after. inversion F; subst. cbn [app] in A. assert (H : is_empty a) by (inversion U; subst; cbn; auto).
           apply (proj2 (open_err _ _ _ H)) in U. congruence.
        -- subst i is. replace (apply_args (before ++ SParam a' :: after) r) with (@Err content_error (list (spec_item ablock)) e); [reflexivity|]. symmetry. apply IH.
           inversion F as [| |? ? ? js' K F'|? t b' ? u' js' F1 F2]; subst.
           ++ rewrite (apply_kept _ _ K) in A. injection A as <- <-. exists before, a', after, u, r', js'. auto.
           ++ cbn [app] in A. apply (proj1 (open_ok _ _ _ _ _ (filled_empty _ _ _ F1))) in A as (_ & ->). exists before, a', after, u', r', js'. auto.
    + assert (H : is_empty a) by (destruct (is_empty_dec a) as [H|H]; auto; rewrite (apply_kept _ _ H) in A; discriminate).
      split.
      * intros [= ->]. apply (proj1 (open_err _ _ _ H)) in A. exists [], a, is, [], ts, []. repeat split; [constructor|exact A].
      * intros (before & a' & after & u & r' & js & E & -> & F & U). destruct before as [|i before]; cbn [app] in E; injection E as E1 E2.
        -- subst a' after. inversion F; subst. cbn [app] in A. apply (proj2 (open_err _ _ _ H)) in U. congruence.
        -- subst i is. exfalso. inversion F as [| |? ? ? js' K F'|? t b' ? u' js' F1 F2]; subst; [contradiction|]. cbn [app] in A.
           assert (X : apply_arg a (t :: u' ++ r') = Ok (b', u' ++ r')) by (apply open_ok; auto). congruence.
Qed.
Lemma filled_full a t b : filled_by a t b -> ~ is_empty b.
Proof. intros H. inversion H as [n t' v R|n t' v R|n t' v R|n t' v R]; subst; cbn [is_empty]; intros ->; exact R. Qed.
Lemma fills_full is ts js : fills is ts js -> Forall (fun i => match i with SText _ => True | SParam a => ~ is_empty a end) js.
Proof. intros H. induction H; constructor; auto. now apply filled_full in H. Qed.
Lemma full_fills js : Forall (fun i => match i with SText _ => True | SParam a => ~ is_empty a end) js -> fills js [] js.
Proof. intros H. induction H as [|[s|a] js K F IH]; [constructor|now constructor|now apply fills_kept]. Qed.
Lemma fills_again (is : list (spec_item ablock)) ts js ts' : apply_args is ts = Ok js -> apply_args js ts' = Ok js.
Proof. intros H. apply apply_args_ok in H as (u & r & _ & F). apply apply_args_ok. exists [], ts'. split; [reflexivity|]. now apply full_fills, (fills_full _ _ _ F). Qed.
Lemma fills_use is ts js : fills is ts js -> length ts = length (filter (fun i => match i with SParam (ArgString _ AEmpty) | SParam (ArgNumber _ AEmpty) | SParam (ArgBoolean _ AEmpty) | SParam (ArgMenu _ AEmpty) => true | _ => false end) is).
Proof.
  intros H. induction H; cbn [filter]; auto.
  - destruct a as [n v|n v|n v|n v]; destruct v; cbn [is_empty] in H; auto; now destruct H.
  - inversion H; subst; cbn [length]; now f_equal.
Qed.

(** ** Blocks *)
Section Placing.
  Context {S : Type} (answers : N -> S -> option (ablock * S)).
  Lemma asks_dec a : (exists id, asks a id) \/ (forall id, ~ asks a id).
  Proof. destruct a as [n v|n v|n v|n v]; destruct v as [t|b|id|]; try (right; intros id K; inversion K; fail); left; exists id; constructor. Qed.
  Lemma fill_kept a s : (forall id, ~ asks a id) -> fill_arg (asked answers) ab_op_code a s = Some (Ok (a, s)).
  Proof. intros H. destruct a as [n v|n v|n v|n v]; destruct v as [t|b|id|]; try reflexivity; exfalso; apply (H id); constructor. Qed.
  Lemma fill_refused a id s : asks a id -> answers id s = None -> fill_arg (asked answers) ab_op_code a s = Some (Err (CeBlockNotFound id)).
  Proof. intros H E. inversion H; subst; cbn [fill_arg fill_value fill_boolean]; unfold get_block, asked; rewrite E; reflexivity. Qed.
  Lemma fill_answered a id s b s1 a' : asks a id -> answers id s = Some (b, s1) -> holds a b a' -> fill_arg (asked answers) ab_op_code a s = Some (Ok (a', s1)).
  Proof.
    intros H E K. inversion H; subst; inversion K as [| |? ? ? v V|]; subst; cbn [fill_arg fill_value fill_boolean]; unfold get_block, asked; rewrite E; cbn [omap_err option_map map_err obnd]; try reflexivity.
    inversion V as [b0 O|b0 O|b0 O O']; subst; rewrite ?O, ?str_eqb_refl; try reflexivity.
    rewrite (proj2 (str_eqb_neq _ _) O), (proj2 (str_eqb_neq _ _) O'). reflexivity.
  Qed.
  Lemma holds_some a id b : asks a id -> exists a', holds a b a'.
  Proof.
    intros H. inversion H; subst; try (eexists; constructor; fail).
    destruct (list_eq_dec N.eq_dec (ab_op_code b) (lit "true")) as [O|O]; [eexists; constructor; now constructor|].
    destruct (list_eq_dec N.eq_dec (ab_op_code b) (lit "false")) as [O'|O']; eexists; constructor; [now constructor 2|now constructor 3].
  Qed.
  Lemma asks_one a id id' : asks a id -> asks a id' -> id' = id.
  Proof. intros H K. inversion H; subst; inversion K; subst; reflexivity. Qed.
  (** one of the two holds, and the outcome is what it says *)
  Lemma placing is : forall s,
    (exists js s', places answers is s js s' /\ apply_blocks (asked answers) ab_op_code is s = Some (Ok (js, s'))) \/
    (exists id, place_fails answers is s id /\ apply_blocks (asked answers) ab_op_code is s = Some (Err (CeBlockNotFound id))).
  Proof.
    induction is as [|[t|a] is IH]; intros s; cbn [apply_blocks].
    - left. exists [], s. split; [constructor|reflexivity].
    - destruct (IH s) as [(js & s' & P & ->)|(id & (before & a & after & js & s' & -> & P & A) & ->)]; cbn [obnd].
      + left. eexists _, _. split; [constructor; exact P|reflexivity].
      + right. exists id. split; [|reflexivity]. exists (SText t :: before), a, after, (SText t :: js), s'. repeat split; [now constructor|apply A|apply A].
    - destruct (asks_dec a) as [(id & A)|A].
      + destruct (answers id s) as [[b s1]|] eqn:E.
        * destruct (holds_some a id b A) as (a' & H). rewrite (fill_answered a id s b s1 a' A E H). cbn [obnd].
          destruct (IH s1) as [(js & s' & P & ->)|(id' & (before & a0 & after & js & s' & -> & P & A') & ->)]; cbn [obnd].
          -- left. eexists _, _. split; [eapply places_block; eauto|reflexivity].
          -- right. exists id'. split; [|reflexivity]. exists (SParam a :: before), a0, after, (SParam a' :: js), s'. repeat split; [eapply places_block; eauto|apply A'|apply A'].
        * right. exists id. rewrite (fill_refused a id s A E). split; [|reflexivity]. exists [], a, is, [], s. repeat split; [constructor|exact A|exact E].
      + rewrite (fill_kept a s A). cbn [obnd].
        destruct (IH s) as [(js & s' & P & ->)|(id & (before & a0 & after & js & s' & -> & P & A') & ->)]; cbn [obnd].
        * left. eexists _, _. split; [apply places_kept; eauto|reflexivity].
        * right. exists id. split; [|reflexivity]. exists (SParam a :: before), a0, after, (SParam a :: js), s'. repeat split; [now apply places_kept|apply A'|apply A'].
  Qed.
  Lemma places_run is s js s' : places answers is s js s' -> forall after, apply_blocks (asked answers) ab_op_code (is ++ after) s =
    (let! (ks, s'') := apply_blocks (asked answers) ab_op_code after s' in Some (Ok (js ++ ks, s''))).
  Proof.
    intros H after. induction H as [s|t is s js s' H IH|a is s js s' A H IH|a id b a' is s s1 js s' A E K H IH]; cbn [app apply_blocks].
    - destruct (apply_blocks _ _ after s) as [[[ks s'']|e|]|]; reflexivity.
    - rewrite IH. destruct (apply_blocks _ _ after s') as [[[ks s'']|e|]|]; reflexivity.
    - rewrite (fill_kept a s A). cbn [obnd]. rewrite IH. destruct (apply_blocks _ _ after s') as [[[ks s'']|e|]|]; reflexivity.
    - rewrite (fill_answered a id s b s1 a' A E K). cbn [obnd]. rewrite IH. destruct (apply_blocks _ _ after s') as [[[ks s'']|e|]|]; reflexivity.
  Qed.
  Lemma apply_blocks_ok is s js s' : apply_blocks (asked answers) ab_op_code is s = Some (Ok (js, s')) <-> places answers is s js s'.
  Proof.
    split.
    - intros H. destruct (placing is s) as [(js' & s'' & P & E)|(id & _ & E)]; rewrite E in H; [|discriminate]. now injection H as <- <-.
    - intros P. apply places_run with (after := []) in P. rewrite app_nil_r in P. rewrite P. cbn. now rewrite app_nil_r.
  Qed.
  Lemma apply_blocks_err is s e : apply_blocks (asked answers) ab_op_code is s = Some (Err e) <-> exists id, e = CeBlockNotFound id /\ place_fails answers is s id.
  Proof.
    split.
    - intros H. destruct (placing is s) as [(js' & s'' & P & E)|(id & F & E)]; rewrite E in H; [discriminate|]. injection H as <-. eauto.
    - intros (id & -> & before & a & after & js & s' & -> & P & A & R). rewrite (places_run _ _ _ _ P). cbn [apply_blocks]. rewrite (fill_refused a id s' A R). reflexivity.
  Qed.
End Placing.
