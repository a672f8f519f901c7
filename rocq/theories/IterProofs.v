(** Proofs for C102. *)
From Verif Require Import Base Str M_View M_Logic M_Iter SpecLines SpecReading SpecIter LogicProofs ReadingProofs.
Local Open Scope N_scope.

Lemma pool_iter_loop {E A M} (p : str -> res E A) (ins : A -> M -> M) lines n acc :
  match pool_iter p ins lines n acc with
  | (Ok m, rest) => pool_loop p ins lines n acc = Ok (m, rest)
  | (Err e, _) => pool_loop p ins lines n acc = Err e
  | (Panic, _) => pool_loop p ins lines n acc = Panic
  end.
Proof.
  revert n acc. induction lines as [|l lines IH]; intros n acc; cbn [pool_iter pool_loop]; [reflexivity|].
  destruct l as [|c l]; [reflexivity|]. destruct (p (c :: l)); cbn [map_err bind]; [apply IH|reflexivity|reflexivity].
Qed.
Lemma iter_ok {E A M} (p : str -> res E A) (ins : A -> M -> M) lines n acc m rest :
  pool_iter p ins lines n acc = (Ok m, rest) <->
  exists body xs, one_section lines body rest /\ lines_read p body xs /\ m = fold_left (fun a x => ins x a) xs acc.
Proof.
  revert n acc. induction lines as [|l lines IH]; intros n acc; cbn [pool_iter].
  - split.
    + intros [= <- <-]. exists [], []. split; [split; [intros []|now right]|]. split; [constructor|reflexivity].
    + intros (body & xs & (_ & [E'|[E' ->]]) & F & ->); [destruct body; discriminate|]. subst body. inversion F. reflexivity.
  - destruct l as [|c l].
    + split.
      * intros [= <- <-]. exists [], []. split; [split; [intros []|now left]|]. split; [constructor|reflexivity].
      * intros (body & xs & (NI & [E'|[E' ->]]) & F & ->).
        -- destruct body as [|b body]; cbn [app] in E'; [injection E' as ->; inversion F; reflexivity|].
           injection E' as <- _. destruct NI. now left.
        -- subst body. destruct NI. now left.
    + destruct (p (c :: l)) as [a|e|] eqn:P.
      * rewrite IH. split.
        -- intros (body & xs & (NI & S') & F & ->). exists ((c :: l) :: body), (a :: xs). split.
           { split; [intros [X|X]; [discriminate|auto]|]. destruct S' as [->|[-> ->]]; [now left|now right]. }
           split; [now constructor|reflexivity].
        -- intros (body & xs & (NI & S') & F & ->). destruct body as [|b body].
           { destruct S' as [X|[X _]]; discriminate. }
           assert (b = c :: l) as ->. { destruct S' as [X|[X _]]; cbn [app] in X; congruence. }
           inversion F as [|? x ? xs' Hx F']; subst. assert (x = a) as -> by congruence.
           exists body, xs'. split; [split; [intros X; apply NI; now right|]|auto].
           destruct S' as [X|[X ->]]; cbn [app] in X; injection X as ->; [now left|now right].
      * split; [discriminate|]. intros (body & xs & (NI & S') & F & ->). destruct body as [|b body].
        { destruct S' as [X|[X _]]; discriminate. }
        assert (b = c :: l) as ->. { destruct S' as [X|[X _]]; cbn [app] in X; congruence. }
        inversion F; subst. congruence.
      * split; [discriminate|]. intros (body & xs & (NI & S') & F & ->). destruct body as [|b body].
        { destruct S' as [X|[X _]]; discriminate. }
        assert (b = c :: l) as ->. { destruct S' as [X|[X _]]; cbn [app] in X; congruence. }
        inversion F; subst. congruence.
Qed.
Lemma stops_cons {A} (p : str -> option A) l lines good bad rest : stops_at p (l :: lines) good bad rest ->
  (good = [] /\ bad = l /\ rest = lines) \/ (exists g, good = l :: g /\ stops_at p lines g bad rest /\ p l <> None).
Proof.
  intros (E & NI & F & B). destruct good as [|g good]; cbn [app] in E; injection E as -> E.
  - left. auto.
  - right. apply Forall_cons_iff in F as [F0 F]. exists good. split; [reflexivity|]. split; [|exact F0].
    split; [exact E|]. split; [|auto]. intros X. apply NI. now right.
Qed.
Lemma iter_err {E A M} (p : str -> res E A) (ins : A -> M -> M) lines n acc e rest :
  pool_iter p ins lines n acc = (Err e, rest) <->
  exists good bad err, stops_at (okay p) lines good bad rest /\ p bad = Err err /\
    e = {| pe_count := n + N.of_nat (length good); pe_content := bad; pe_source := err |}.
Proof.
  revert n acc. induction lines as [|l lines IH]; intros n acc; cbn [pool_iter].
  - split; [discriminate|]. intros (good & bad & err & (X & _) & _). destruct good; discriminate.
  - destruct l as [|c l].
    + split; [discriminate|]. intros (good & bad & err & (X & NI & _) & _). destruct NI. destruct good; cbn [app] in X; injection X as <- _; now left.
    + destruct (p (c :: l)) as [a|e'|] eqn:P.
      * rewrite IH. split.
        -- intros (good & bad & err & (X & NI & F & B) & PB & ->). exists ((c :: l) :: good), bad, err. split.
           { split; [now rewrite X|]. split; [intros [Y|Y]; [discriminate|auto]|]. split; [|exact B].
             constructor; [|exact F]. unfold okay. now rewrite P. }
           split; [exact PB|]. cbn [length]. f_equal. lia.
        -- intros (good & bad & err & St & PB & ->). apply stops_cons in St as [(-> & -> & ->)|(g & -> & St & _)]; [congruence|].
           exists g, bad, err. split; [exact St|]. split; [exact PB|]. cbn [length]. f_equal. lia.
      * split.
        -- intros [= <- <-]. exists [], (c :: l), e'. split.
           { split; [reflexivity|]. split; [intros [Y|[]]; discriminate|]. split; [constructor|]. unfold okay. now rewrite P. }
           split; [exact P|]. cbn [length]. f_equal. cbn. lia.
        -- intros (good & bad & err & St & PB & ->). apply stops_cons in St as [(-> & -> & ->)|(g & -> & _ & Z)].
           ++ assert (err = e') as -> by congruence. cbn [length]. do 3 f_equal. cbn. lia.
           ++ unfold okay in Z. rewrite P in Z. congruence.
      * split; [discriminate|]. intros (good & bad & err & St & PB & ->). apply stops_cons in St as [(-> & -> & ->)|(g & -> & _ & Z)]; [congruence|].
        unfold okay in Z. rewrite P in Z. congruence.
Qed.
Lemma iter_nopanic {E A M} (p : str -> res E A) (ins : A -> M -> M) lines n acc rest : (forall s, p s <> Panic) ->
  pool_iter p ins lines n acc <> (Panic, rest).
Proof.
  intros H X. pose proof (pool_iter_loop p ins lines n acc) as Y. rewrite X in Y. now apply pool_loop_nopanic in Y.
Qed.
Lemma iter_reads {E A M} (p : str -> res E A) (ins : A -> M -> M) acc (R : list str -> M -> Prop) : (forall s, p s <> Panic) ->
  (forall body m, R body m <-> exists xs, lines_read p body xs /\ m = fold_left (fun a x => ins x a) xs acc) ->
  reads_section p R (fun lines => pool_iter p ins lines 0 acc).
Proof.
  intros NP H lines rest. split; [|split].
  - intros m. rewrite iter_ok. split.
    + intros (body & xs & S' & L & ->). exists body. split; [exact S'|]. apply H. eauto.
    + intros (body & S' & X). apply H in X as (xs & L & ->). eauto.
  - intros e. rewrite iter_err. split; intros (good & bad & err & St & PB & ->); exists good, bad, err; auto.
  - now apply iter_nopanic.
Qed.
Lemma fold_own {A} (name : A -> str) (xs : list A) :
  fold_left (fun m x => sinsert (name x) x m) xs [] = keep_last (map (fun x => (name x, x)) xs).
Proof.
  rewrite <- keep_last_fold. generalize (@nil (str * A)). induction xs as [|x xs IH]; intros m; cbn [fold_left map fst snd]; auto.
Qed.
Lemma okor_nopanic {E A} (e : E) (o : option A) : ok_or e o <> Panic.
Proof. now destruct o. Qed.
Lemma layout_iter_loop lines acc n :
  match layout_iter lines acc n with
  | (Ok m, rest) => exists c, layout_parse_iter lines acc n = Ok (m, rest, c)
  | (Err e, _) => layout_parse_iter lines acc n = Err e
  | (Panic, _) => layout_parse_iter lines acc n = Panic
  end.
Proof.
  revert n acc. induction lines as [|l lines IH]; intros n acc; cbn [layout_iter layout_parse_iter]; [eauto|].
  destruct l as [|c l]; [eauto|]. destruct (view_line_parse (c :: l)); [apply IH|reflexivity].
Qed.
(** a layout is read like a pool, except for what the error holds *)
Definition view_res (l : str) : res unit android_view := ok_or tt (view_line_parse l).
Lemma layout_as_pool lines acc n :
  match pool_iter view_res vpush lines n acc with
  | (Ok m, rest) => layout_iter lines acc n = (Ok m, rest)
  | (Err e, rest) => exists v, layout_iter lines acc n = (Err {| lpe_view_before := v; lpe_content := pe_content e; lpe_line := pe_count e |}, rest)
  | (Panic, rest) => False
  end.
Proof.
  revert n acc. induction lines as [|l lines IH]; intros n acc; cbn [layout_iter pool_iter]; [reflexivity|].
  destruct l as [|c l]; [reflexivity|]. unfold view_res at 1. destruct (view_line_parse (c :: l)); cbn [ok_or]; [apply IH|]. cbn [pe_content pe_count]. eauto.
Qed.
Lemma lines_views body xs : lines_read view_res body xs <-> Forall2 (fun l x => view_line_parse l = Some x) body xs.
Proof.
  unfold lines_read, view_res. split; induction 1; constructor; auto.
  - destruct (view_line_parse x); cbn [ok_or] in H; congruence.
  - now rewrite H.
Qed.
Lemma layout_iter_ok lines acc n m rest : layout_iter lines acc n = (Ok m, rest) <->
  exists body xs, one_section lines body rest /\ Forall2 (fun l x => view_line_parse l = Some x) body xs /\ m = acc ++ xs.
Proof.
  transitivity (pool_iter view_res vpush lines n acc = (Ok m, rest)).
  - pose proof (layout_as_pool lines acc n) as X. destruct (pool_iter view_res vpush lines n acc) as [[m'|e|] rest'].
    + rewrite X. split; intros [= -> ->]; reflexivity.
    + destruct X as [v ->]. split; discriminate.
    + destruct X.
  - rewrite iter_ok. split; intros (body & xs & A & B & ->); exists body, xs; (split; [exact A|]); (split; [now apply lines_views|]); now rewrite fold_vpush.
Qed.
Lemma layout_iter_err lines acc n e rest : layout_iter lines acc n = (Err e, rest) <->
  exists good bad xs, stops_at view_line_parse lines good bad rest /\ Forall2 (fun l x => view_line_parse l = Some x) good xs /\
    e = {| lpe_view_before := last (map Some (acc ++ xs)) None; lpe_content := bad; lpe_line := n + N.of_nat (length good) |}.
Proof.
  revert n acc. induction lines as [|l lines IH]; intros n acc; cbn [layout_iter].
  - split; [discriminate|]. intros (good & bad & err & (X & _) & _). destruct good; discriminate.
  - destruct l as [|c l].
    + split; [discriminate|]. intros (good & bad & err & (X & NI & _) & _). destruct NI. destruct good; cbn [app] in X; injection X as <- _; now left.
    + destruct (view_line_parse (c :: l)) as [a|] eqn:P.
      * rewrite IH. split.
        -- intros (good & bad & xs & (X & NI & F & B) & L & ->). exists ((c :: l) :: good), bad, (a :: xs). split.
           { split; [now rewrite X|]. split; [intros [Y|Y]; [discriminate|auto]|]. split; [|exact B]. constructor; [congruence|exact F]. }
           split; [now constructor|]. rewrite <- app_assoc. cbn [app length]. f_equal. lia.
        -- intros (good & bad & xs & St & L & ->). pose proof St as (_ & _ & _ & B). apply stops_cons in St as [(-> & -> & ->)|(g & -> & St & _)]; [congruence|].
           inversion L as [|? x ? xs' Hx L']; subst. assert (x = a) as -> by congruence.
           exists g, bad, xs'. split; [exact St|]. split; [exact L'|]. rewrite <- app_assoc. cbn [app length]. f_equal. lia.
      * split.
        -- intros [= <- <-]. exists [], (c :: l), []. split.
           { split; [reflexivity|]. split; [intros [Y|[]]; discriminate|]. split; [constructor|exact P]. }
           split; [constructor|]. rewrite app_nil_r. cbn [length]. f_equal. cbn. lia.
        -- intros (good & bad & xs & St & L & ->). apply stops_cons in St as [(-> & -> & ->)|(g & -> & _ & Z)].
           ++ inversion L; subst. rewrite app_nil_r. cbn [length]. do 3 f_equal. cbn. lia.
           ++ congruence.
Qed.
