(** Proofs: when [Project::parse] panics *)
From Verif Require Import Base Spec Str Dec Flt Json JsonProofs Recs RecsProofs LogicMapProofs M_Color M_Date M_Project SpecReading ProjectReadingProofs
  SpecJson JsonGrammar SpecRecord RecordProofs SpecDate DateTextProofs.
Local Open Scope N_scope.

(** ** The members that are read *)
Lemma mems_read_S f s : pmems_read (S f) s =
  match skip_ws s with
  | c :: r => if c =? 34 then match pstr r with
      | Some (u, q0) => match skip_ws q0 with
          | d :: q1 => if d =? 58 then match pval f q1 with
              | Some (v, q2) => (join_units u, v) :: match skip_ws q2 with e :: q => if e =? 44 then pmems_read f q else [] | [] => [] end
              | None => [] end else []
          | [] => [] end
      | None => [] end else []
  | [] => [] end.
Proof. reflexivity. Qed.
(** every member that is read begins the text *)
Lemma mems_read_sound f : forall s l1 l2, l1 <> [] -> pmems_read f s = l1 ++ l2 -> exists t rest, members_text l1 t /\ s = t ++ rest.
Proof.
  induction f as [|f IH]; intros s l1 l2 N0 H; [destruct l1; [congruence|discriminate]|].
  assert (NIL : [] = l1 ++ l2 -> exists t rest, members_text l1 t /\ s = t ++ rest) by (destruct l1; [congruence|discriminate]).
  rewrite mems_read_S in H. destruct (skip_ws s) as [|c r] eqn:Hs; [auto|]. apply skip_head in Hs as (w & Hw & -> & _).
  destruct (N.eqb_spec c 34) as [->|_]; [|auto]. destruct (pstr r) as [[u q0]|] eqn:E; [|auto].
  apply string_sound in E as (kt & EK & KT). rewrite EK in *. clear EK r.
  destruct (skip_ws q0) as [|d q1] eqn:Hq; [auto|]. apply skip_head in Hq as (w1 & Hw1 & -> & _). destruct (N.eqb_spec d 58) as [->|_]; [|auto].
  destruct (pval f q1) as [[v q2]|] eqn:E; [|auto]. apply (proj1 (p_sound f)) in E as (w2 & t & Hw2 & T & ->). clear NIL.
  destruct l1 as [|kv l1]; [congruence|]. injection H as <- H. destruct l1 as [|kv l1].
  - exists (w ++ kt ++ w1 ++ lit ":" ++ w2 ++ t ++ []), q2. split; [constructor; auto; constructor|]. rewrite app_nil_r. repeat (rewrite <- !app_assoc; cbn). reflexivity.
  - destruct (skip_ws q2) as [|e q] eqn:Hs; [discriminate|]. apply skip_head in Hs as (w' & Hw' & -> & _). destruct (N.eqb_spec e 44) as [->|_]; [|discriminate].
    apply IH in H as (ts & rest & TS & ->); [|discriminate].
    exists ((w ++ kt ++ w1 ++ lit ":" ++ w2 ++ t ++ w') ++ lit "," ++ ts), rest. split; [now constructor|]. repeat (rewrite <- !app_assoc; cbn). reflexivity.
Qed.
Lemma value_nonempty v t : value_text v t -> (0 < length t)%nat.
Proof. intros H. apply value_head in H as (c & q & -> & _). cbn. lia. Qed.
Lemma mems_read_fuel f : forall g s, (2 * length s + 2 <= f)%nat -> (f <= g)%nat -> pmems_read g s = pmems_read f s.
Proof.
  induction f as [|f IH]; intros g s L G; [lia|]. destruct g as [|g]; [lia|]. rewrite !mems_read_S.
  destruct (skip_ws s) as [|c r] eqn:Hs; [reflexivity|]. apply skip_head in Hs as (w & Hw & -> & _).
  destruct (c =? 34); [|reflexivity]. destruct (pstr r) as [[u q0]|] eqn:E; [|reflexivity]. apply string_sound in E as (kt & EK & KT).
  assert (L1 : (length q0 <= length r)%nat).
  { apply (f_equal (@length _)) in EK. rewrite app_length in EK. cbn [length] in EK. destruct KT; cbn [length] in EK; lia. }
  destruct (skip_ws q0) as [|d q1] eqn:Hq; [reflexivity|]. apply skip_head in Hq as (w1 & _ & -> & _). destruct (d =? 58); [|reflexivity].
  rewrite !app_length in *. cbn [length] in *. rewrite (pval_fuel q1 g), (pval_fuel q1 f) by lia.
  destruct (pval _ q1) as [[v q2]|] eqn:E; [|reflexivity]. apply (proj1 (p_sound _)) in E as (w2 & t & _ & _ & ->). rewrite !app_length in *. f_equal.
  destruct (skip_ws q2) as [|e q] eqn:Hq; [reflexivity|]. apply skip_head in Hq as (w' & _ & -> & _). destruct (e =? 44); [|reflexivity].
  rewrite !app_length in *. cbn [length] in *. apply IH; lia.
Qed.
(** members that begin the text are read, if the last one has a text as its value *)
Lemma mems_read_complete l t : members_text l t -> forall l0 k s rest, l = l0 ++ [(k, JStr s)] ->
  exists f, forall g, (f <= g)%nat -> exists l2', pmems_read g (t ++ rest) = l ++ l2'.
Proof.
  induction 1 as [k v w kt w1 w2 t w' Hw HK Hw1 Hw2 HV Hw'|k v w kt w1 w2 t w' l ts Hw HK Hw1 Hw2 HV Hw' Hl IH]; intros l0 k0 s rest E.
  - destruct l0 as [|? [|? ?]]; [|discriminate..]. injection E as <- ->.
    exists 2%nat. intros [|[|g]] G; [lia..|]. rewrite mems_read_S. rewrite <- !app_assoc.
    apply (string_complete _ _ (w1 ++ lit ":" ++ w2 ++ t ++ w' ++ rest)) in HK as (t' & us & -> & S & <-). cbn [app].
    rewrite skip_to by (assumption || reflexivity). change (34 =? 34) with true. cbv iota. rewrite S. lits.
    rewrite skip_to by (assumption || reflexivity). change (58 =? 58) with true. cbv iota.
    inversion HV as [| | | |s0 t0 HS| | | |]; subst. apply (string_complete _ _ (w' ++ rest)) in HS as (t'' & us' & -> & S' & <-).
    rewrite pval_S. cbn [app]. rewrite skip_to by (assumption || reflexivity). change (34 =? 34) with true. cbv iota. rewrite S'. cbn [obind]. eexists. reflexivity.
  - destruct l0 as [|kv l0]; [injection E as _ _ ->; inversion Hl|]. injection E as <- ->.
    destruct (IH l0 k0 s rest eq_refl) as (f2 & P2).
    destruct (proj1 p_complete _ _ HV w2 (w' ++ lit "," ++ ts ++ rest)) as [f1 P1]; [assumption|apply stop_blank; [assumption|apply stop_cons; (reflexivity || discriminate)]|].
    exists (S (f1 + f2)). intros [|g] G; [lia|]. rewrite mems_read_S. rewrite <- !app_assoc.
    apply (string_complete _ _ (w1 ++ lit ":" ++ w2 ++ t ++ w' ++ lit "," ++ ts ++ rest)) in HK as (t' & us & -> & S & <-). cbn [app].
    rewrite skip_to by (assumption || reflexivity). change (34 =? 34) with true. cbv iota. rewrite S. lits.
    rewrite skip_to by (assumption || reflexivity). change (58 =? 58) with true. cbv iota.
    change (lit ",") with [44] in P1. cbn [app] in P1. rewrite (pval_more f1 g _ _ ltac:(lia) P1). lits.
    rewrite skip_to by (assumption || reflexivity). change (44 =? 44) with true. cbv iota.
    destruct (P2 g ltac:(lia)) as (l2' & ->). exists l2'. reflexivity.
Qed.
(** what a complete object has, is read *)
Lemma mems_read_all f : forall s l r, pmems f s = Some (l, r) -> pmems_read f s = l.
Proof.
  induction f as [|f IH]; intros s l r H; [discriminate|]. rewrite pmems_S in H. rewrite mems_read_S.
  destruct (skip_ws s) as [|c q]; [discriminate|]. destruct (c =? 34); [|discriminate]. destruct (pstr q) as [[u q0]|]; [|discriminate]. cbn [obind] in H.
  destruct (skip_ws q0) as [|d q1]; [discriminate|]. destruct (d =? 58); [|discriminate]. destruct (pval f q1) as [[v q2]|]; [|discriminate]. cbn [obind] in H.
  destruct (skip_ws q2) as [|e q3]; [discriminate|]. destruct (e =? 44).
  - inv_obind H. destruct p as [l' r']. injection H as <- <-. now rewrite (IH _ _ _ E).
  - destruct (e =? 125); [|discriminate]. injection H as <- <-. reflexivity.
Qed.
Lemma members_read_all s kvs : parse_json s = Some (JObj kvs) -> members_read s = kvs.
Proof.
  unfold parse_json, members_read. intros H. inv_obind H. destruct p as [v r]. destruct (skip_ws r); [|discriminate]. injection H as ->.
  replace (2 * length s + 2)%nat with (S (2 * length s + 1)) in E by lia. rewrite pval_S in E. destruct (skip_ws s) as [|c q] eqn:Hs; [discriminate|].
  destruct (c =? 34); [inv_obind E; destruct p; discriminate|]. destruct (c =? 91).
  { destruct (skip_ws q) as [|d q1]; [discriminate|]. destruct (d =? 93); [discriminate|]. inv_obind E. destruct p; discriminate. }
  destruct (c =? 123).
  2:{ destruct (c =? 110); [inv_obind E; discriminate|]. destruct (c =? 116); [inv_obind E; discriminate|]. destruct (c =? 102); [inv_obind E; discriminate|].
      destruct ((c =? 45) || is_digit c); [|discriminate]. inv_obind E. destruct p; discriminate. }
  apply skip_head in Hs as (w & Hw & -> & _). rewrite app_length in *. cbn [length] in *.
  destruct (skip_ws q) as [|d q1] eqn:Hq; [discriminate|]. destruct (N.eqb_spec d 125) as [->|_].
  - injection E as <- _. replace (2 * (length w + S (length q)) + 2)%nat with (S (2 * (length w + S (length q)) + 1)) by lia. rewrite mems_read_S, Hq. reflexivity.
  - inv_obind E. destruct p as [l r']. injection E as <- <-. rewrite (mems_read_fuel (2 * (length w + S (length q)) + 1)) by lia. eapply mems_read_all; eauto.
Qed.

(** ** Decoding up to the date *)
Lemma once_panic {A} (o : option A) r : once o r = Panic <-> o = None /\ r = Panic.
Proof. destruct o; cbn; split; try discriminate; try tauto. intros [H _]. discriminate. Qed.
Lemma ok_or_nopanic {E A} (e : E) (o : option A) : ok_or e o <> Panic.
Proof. destruct o; discriminate. Qed.
Lemma pj_step_panic st kv : pj_step st kv = Panic <-> ps_date st = None /\ exists d, kv = (Some (lit "my_sc_reg_dt"), JStr (Some d)) /\ date_de d = Panic.
Proof.
  split.
  - destruct kv as [[k|] v]; cbn [pj_step]; [|discriminate].
    repeat match goal with
    | |- ((if str_eqb ?a ?b then _ else _) = _) -> _ => destruct (str_eqb_spec a b) as [->|_]
    end;
    try (intros H; apply bind_panic in H as [H|(a & _ & H)]; [|discriminate]; apply once_panic in H as [_ H]; exfalso; revert H; apply ok_or_nopanic).
    + intros H. apply bind_panic in H as [H|(a & _ & H)]; [|discriminate]. apply once_panic in H as [O H]. split; [assumption|].
      destruct v; try discriminate. destruct s as [d|]; [|discriminate]. cbn [d_str ok_or bind] in H. eauto.
    + destruct (content_ok CONTENT_DEPTH v); discriminate.
  - intros (O & d & -> & H). unfold pj_step.
    change (str_eqb (lit "my_sc_reg_dt") (lit "sc_id")) with false. change (str_eqb (lit "my_sc_reg_dt") (lit "my_app_name")) with false.
    change (str_eqb (lit "my_sc_reg_dt") (lit "my_ws_name")) with false. change (str_eqb (lit "my_sc_reg_dt") (lit "my_sc_pkg_name")) with false.
    change (str_eqb (lit "my_sc_reg_dt") (lit "sc_ver_code")) with false. change (str_eqb (lit "my_sc_reg_dt") (lit "sc_ver_name")) with false.
    change (str_eqb (lit "my_sc_reg_dt") (lit "my_sc_reg_dt")) with true. cbv iota. rewrite O. cbn [once d_str ok_or bind]. now rewrite H.
Qed.
Lemma pj_fold_panic l : forall st, pj_fold l st = Panic <->
  exists kvs d more st', l = kvs ++ (Some (lit "my_sc_reg_dt"), JStr (Some d)) :: more /\ pj_fold kvs st = Ok st' /\ ps_date st' = None /\ date_de d = Panic.
Proof.
  induction l as [|kv l IH]; intros st; cbn [pj_fold].
  - split; [discriminate|]. intros ([|? ?] & d & more & st' & H & _); discriminate.
  - split.
    + intros H. apply bind_panic in H as [H|(st1 & H1 & H)].
      * apply pj_step_panic in H as (O & d & -> & H). exists [], d, l, st. auto.
      * apply IH in H as (kvs & d & more & st' & -> & H & O & D). exists (kv :: kvs), d, more, st'. split; [reflexivity|]. split; [|auto]. cbn [pj_fold]. now rewrite H1.
    + intros ([|kv0 kvs] & d & more & st' & E & F & O & D).
      * injection E as -> ->. cbn [pj_fold] in F. injection F as ->. assert (P : pj_step st' (Some (lit "my_sc_reg_dt"), JStr (Some d)) = Panic) by (apply pj_step_panic; eauto). now rewrite P.
      * injection E as -> ->. cbn [pj_fold] in F. destruct (pj_step st kv0) as [st1| |]; try discriminate. cbn [bind] in *. apply IH. exists kvs, d, more, st'. auto.
Qed.
Lemma d_project_panic kvs : d_project (JObj kvs) = Panic <-> pj_fold kvs pj_start = Panic.
Proof.
  cbn [d_project]. destruct (pj_fold kvs pj_start) as [st| |]; cbn [bind]; [|split; [discriminate|discriminate]|tauto]. split; [|discriminate].
  repeat match goal with |- (bind (ok_or tt ?o) _ = Panic) -> _ => destruct o; cbn [ok_or bind]; [|discriminate] end. discriminate.
Qed.
Lemma project_parse_panic s : project_parse s = Panic <-> pj_fold (members_read s) pj_start = Panic.
Proof.
  unfold project_parse. destruct (parse_json s) as [j|] eqn:E; [|destruct (pj_fold _ _); split; (discriminate || reflexivity)].
  destruct j as [| | | | |kvs]; cycle 5.
  { rewrite (members_read_all _ _ E). apply d_project_panic. }
  all: split; [discriminate|]; intros H; exfalso; unfold members_read in H; unfold parse_json in E; destruct (pval _ s) as [[v r]|] eqn:P; [|discriminate]; cbn [obind] in E;
    destruct (skip_ws r); [|discriminate]; injection E as ->; replace (2 * length s + 2)%nat with (S (2 * length s + 1)) in P by lia; rewrite pval_S in P;
    destruct (skip_ws s) as [|c q]; [discriminate|]; destruct (N.eqb_spec c 123) as [->|_]; [|discriminate]; cbn [N.eqb Pos.eqb] in P;
    (destruct (skip_ws q) as [|d q1]; [discriminate|]); destruct (d =? 125); [discriminate|]; inv_obind P; destruct p; discriminate.
Qed.

(** ** [begins] *)
Lemma frel_perhaps {A} (d : json -> option A) (R : json -> A -> Prop) {r : Reads d R} kvs k : (exists o, frel (dd d) None o (vals (lit k) kvs)) <-> perhaps kvs k R.
Proof.
  unfold perhaps, field, frel. split.
  - intros (o & H). destruct (vals (lit k) kvs) as [|v [|? ?]] eqn:V; [left; now apply vals_nil| |destruct H].
    right. destruct H as (_ & x & H & _). apply ok_or_ok in H. exists x, v. split; [now apply vals_only|now apply reads].
  - intros [H|(x & v & H1 & H2)].
    + apply vals_nil in H. rewrite H. eauto.
    + apply vals_only in H1. rewrite H1. exists (Some x). split; [reflexivity|]. exists x. split; [|reflexivity]. apply ok_or_ok. now apply reads.
Qed.
Lemma fold_begins kvs : (exists st, pj_fold kvs pj_start = Ok st /\ ps_date st = None) <-> begins kvs.
Proof.
  setoid_rewrite pj_fold_iff. unfold fold_rel. cbn [pj_start ps_id ps_app ps_ws ps_pkg ps_vc ps_vn ps_date ps_icon ps_sv ps_rest app]. split.
  - intros (st & (H1 & H2 & H3 & H4 & H5 & H6 & H7 & H8 & H9 & H10 & H11) & O).
    constructor; try (eapply frel_perhaps; [exact _|eauto]); [|assumption].
    rewrite O in H7. destruct (vals (lit "my_sc_reg_dt") kvs) as [|v [|? ?]] eqn:V; [now apply vals_nil| |destruct H7]. destruct H7 as (_ & x & _ & X). discriminate.
  - intros [H1 H2 H3 H4 H5 H6 H7 H8 H9 H10].
    apply (proj2 (frel_perhaps d_u16_text _ _ _)) in H1 as (o1 & H1). apply (proj2 (frel_perhaps d_str _ _ _)) in H2 as (o2 & H2). apply (proj2 (frel_perhaps d_str _ _ _)) in H3 as (o3 & H3).
    apply (proj2 (frel_perhaps d_str _ _ _)) in H4 as (o4 & H4). apply (proj2 (frel_perhaps d_u16_text _ _ _)) in H5 as (o5 & H5). apply (proj2 (frel_perhaps d_str _ _ _)) in H6 as (o6 & H6).
    apply (proj2 (frel_perhaps d_bool _ _ _)) in H8 as (o8 & H8). apply (proj2 (frel_perhaps d_u8 _ _ _)) in H9 as (o9 & H9). apply vals_nil in H7.
    exists {| ps_id := o1; ps_app := o2; ps_ws := o3; ps_pkg := o4; ps_vc := o5; ps_vn := o6; ps_date := None; ps_icon := o8; ps_sv := o9; ps_rest := other kvs |}.
    cbn [ps_id ps_app ps_ws ps_pkg ps_vc ps_vn ps_date ps_icon ps_sv ps_rest]. rewrite H7. cbn [frel]. split; [|reflexivity]. repeat (split; [first [assumption|reflexivity]|]). assumption.
Qed.
Theorem project_panic_iff s : project_parse s = Panic <-> project_crash s.
Proof.
  rewrite project_parse_panic, pj_fold_panic. unfold project_crash. split.
  - intros (kvs & d & more & st & E & F & O & D). unfold members_read in E. destruct (skip_ws s) as [|c r] eqn:Hs; [destruct kvs; discriminate|].
    destruct (N.eqb_spec c 123) as [->|_]; [|destruct kvs; discriminate]. apply skip_head in Hs as (w & Hw & -> & _).
    replace (kvs ++ (Some (lit "my_sc_reg_dt"), JStr (Some d)) :: more) with ((kvs ++ [(Some (lit "my_sc_reg_dt"), JStr (Some d))]) ++ more) in E by (now rewrite <- app_assoc).
    apply mems_read_sound in E as (m & rest & M & ->); [|destruct kvs; discriminate].
    exists w, kvs, d, m, rest. split; [reflexivity|]. split; [assumption|]. split; [assumption|]. split; [apply fold_begins; eauto|now apply date_de_panic].
  - intros (w & kvs & d & m & rest & -> & Hw & M & B & D). apply fold_begins in B as (st & F & O). apply date_de_panic in D.
    destruct (mems_read_complete _ _ M kvs (Some (lit "my_sc_reg_dt")) (Some d) rest eq_refl) as (f & P).
    unfold members_read. change (lit "{") with [123]. cbn [app]. rewrite skip_to by (assumption || reflexivity). change (123 =? 123) with true. cbv iota.
    set (n := length (w ++ 123 :: m ++ rest)).
    assert (L : (2 * length (m ++ rest) + 2 <= 2 * n + 2)%nat) by (unfold n; rewrite (app_length w); cbn [length]; lia).
    destruct (P (f + (2 * n + 2))%nat ltac:(lia)) as (l2 & E). rewrite (mems_read_fuel (2 * n + 2)) in E by lia.
    exists kvs, d, l2, st. rewrite E, <- app_assoc. auto.
Qed.
