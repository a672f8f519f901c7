(** Proofs about [Json.v]: writing then reading is the identity; fuel is irrelevant. *)
From Verif Require Import Base Str Dec Flt FltProofs Json.

(** ** Induction over trees *)
Section Ind.
  Variable P : json -> Prop.
  Hypothesis Hnull : P JNull.
  Hypothesis Hbool : forall b, P (JBool b).
  Hypothesis Hnum : forall n, P (JNum n).
  Hypothesis Hstr : forall s, P (JStr s).
  Hypothesis Harr : forall l, Forall P l -> P (JArr l).
  Hypothesis Hobj : forall l, Forall (fun kv => P (snd kv)) l -> P (JObj l).
  Fixpoint json_ind2 (j : json) : P j :=
    match j with
    | JNull => Hnull
    | JBool b => Hbool b
    | JNum n => Hnum n
    | JStr s => Hstr s
    | JArr l => Harr l ((fix go l := match l return Forall P l with
                                     | [] => Forall_nil _
                                     | x :: r => Forall_cons _ (json_ind2 x) (go r) end) l)
    | JObj l => Hobj l ((fix go l := match l return Forall (fun kv => P (snd kv)) l with
                                     | [] => Forall_nil _
                                     | x :: r => Forall_cons _ (json_ind2 (snd x)) (go r) end) l)
    end.
End Ind.

(** ** Well-formed numbers *)
Definition nonempty_digits (s : str) : bool := match s with [] => false | _ => forallb is_digit s end.
Definition wf_num (n : jnum) : bool :=
  nonempty_digits (jint n) &&
  (match jint n with d :: _ :: _ => negb (d =? 48) | _ => true end) &&
  (match jfrac n with Some f => nonempty_digits f | None => true end) &&
  (match jexp n with Some (_, ds) => nonempty_digits ds | None => true end).
Fixpoint wf_json (j : json) : bool :=
  match j with
  | JNum n => wf_num n
  | JArr l => forallb wf_json l
  | JObj l => forallb (fun kv => wf_json (snd kv)) l
  | _ => true
  end.

Ltac neqb := repeat match goal with
  | |- context [?a =? ?b] => destruct (N.eqb_spec a b); [try lia; try congruence|]
  end.

(** ** Strings *)
Lemma hexdig_val n : n < 16 -> to_digit 16 (hexdig n) = Some n.
Proof.
  intros H.
  assert (G : forallb (fun n => match to_digit 16 (hexdig n) with Some m => m =? n | None => false end)
                (map N.of_nat (seq 0 16)) = true) by (vm_compute; reflexivity).
  rewrite forallb_forall in G. specialize (G n).
  destruct (to_digit 16 (hexdig n)).
  - f_equal. apply N.eqb_eq. apply G. apply in_map_iff. exists (N.to_nat n). split; [lia|apply in_seq; lia].
  - discriminate G. apply in_map_iff. exists (N.to_nat n). split; [lia|apply in_seq; lia].
Qed.
Lemma pstr_esc c r : pstr (esc_char c ++ r) =
  let? (u, q) := pstr r in Some ((if (c <? 32) && negb ((c =? 8) || (c =? 12) || (c =? 10) || (c =? 13) || (c =? 9)) then UE c else UC c) :: u, q).
Proof.
  unfold esc_char.
  destruct (N.eqb_spec c 34); [subst; reflexivity|].
  destruct (N.eqb_spec c 92); [subst; reflexivity|].
  destruct (N.eqb_spec c 8); [subst; reflexivity|].
  destruct (N.eqb_spec c 12); [subst; reflexivity|].
  destruct (N.eqb_spec c 10); [subst; reflexivity|].
  destruct (N.eqb_spec c 13); [subst; reflexivity|].
  destruct (N.eqb_spec c 9); [subst; reflexivity|].
  destruct (N.ltb_spec c 32).
  - cbn [app pstr]. change (92 =? 34) with false. change (92 =? 92) with true. cbv iota.
    change (simple_escape 117) with (@None char). change (117 =? 117) with true. cbv iota.
    unfold hex4. change (to_digit 16 48) with (Some 0). cbn [obind].
    rewrite !hexdig_val; [|apply N.mod_lt; lia|apply N.div_lt_upper_bound; lia]. cbn [obind].
    replace (((0 * 16 + 0) * 16 + c / 16) * 16 + c mod 16) with c; [reflexivity|].
    pose proof (N.div_mod c 16). lia.
  - cbn [app pstr]. destruct (N.eqb_spec c 34); [congruence|]. destruct (N.eqb_spec c 92); [congruence|].
    destruct (N.ltb_spec c 32); [lia|]. reflexivity.
Qed.
Lemma pstr_print s r : exists u, pstr (concat (map esc_char s) ++ 34 :: r) = Some (u, r) /\ join_units u = Some s.
Proof.
  induction s as [|c s IH].
  - exists []. split; reflexivity.
  - destruct IH as [u [H1 H2]]. cbn [map concat]. rewrite <- app_assoc, pstr_esc, H1. cbn [obind].
    eexists. split; [reflexivity|]. destruct (_ && _) eqn:E.
    + apply andb_prop in E as [E _]. apply N.ltb_lt in E. cbn [join_units]. rewrite H2.
      destruct (N.leb_spec 0xD800 c); [lia|]. destruct (N.leb_spec 0xDC00 c); [lia|]. reflexivity.
    + cbn [join_units]. now rewrite H2.
Qed.
Lemma pstr_print_ostr s r : exists t, print_ostr s = 34 :: t /\
  exists u, pstr (t ++ r) = Some (u, r) /\ join_units u = s.
Proof.
  destruct s as [s|].
  - unfold print_ostr, print_str. eexists; split; [reflexivity|]. rewrite <- app_assoc. cbn [app].
    apply pstr_print.
  - eexists; split; [reflexivity|]. exists [UE 0xD800]. split; reflexivity.
Qed.

(** ** Numbers *)
Definition num_stop (r : str) : Prop :=
  match r with [] => True | c :: _ => is_digit c = false /\ c <> 46 /\ c <> 101 /\ c <> 69 end.
Lemma nonempty_digits_spec s : nonempty_digits s = true -> s <> [] /\ forallb is_digit s = true.
Proof. destruct s; [discriminate|]. intros H; split; [discriminate|exact H]. Qed.
Lemma pnum_print n r : wf_num n = true -> num_stop r -> pnum (print_num n ++ r) = Some (n, r).
Proof.
  destruct n as [ng ip fp ex]. unfold wf_num, print_num. cbn [jneg jint jfrac jexp]. intros H Hr.
  apply andb_prop in H as [H H4]. apply andb_prop in H as [H H3]. apply andb_prop in H as [H1 H2].
  apply nonempty_digits_spec in H1 as [Hn H1].
  rewrite <- !app_assoc. unfold pnum.
  assert (E0 : forall t, (match (if ng then [45] else []) ++ ip ++ t with
     | [] => (false, (if ng then [45] else []) ++ ip ++ t)
     | c :: r0 => if c =? 45 then (true, r0) else (false, (if ng then [45] else []) ++ ip ++ t) end) = (ng, ip ++ t)).
  { intros t. destruct ng; [reflexivity|]. destruct ip as [|d ip]; [congruence|]. cbn [app].
    cbn [forallb] in H1. apply andb_prop in H1 as [H1 _]. apply is_digit_range in H1.
    destruct (N.eqb_spec d 45); [lia|]. reflexivity. }
  rewrite E0. clear E0.
  set (tl2 := match ex with Some (eneg, ds) => 101 :: (if eneg then [45] else []) ++ ds | None => [] end).
  assert (S2 : match tl2 ++ r with c :: _ => is_digit c = false /\ c <> 46 | [] => True end).
  { unfold tl2. destruct ex as [[en ds]|]; cbn [app]; [split; [reflexivity|lia]|].
    destruct r; auto. cbn in Hr. tauto. }
  rewrite span_digits_app; auto.
  2: { destruct fp; cbn [app]; [reflexivity|]. destruct (tl2 ++ r); tauto. }
  assert (OK : (match ip with [] => false | d :: r0 => if d =? 48 then match r0 with [] => true | _ :: _ => false end else true end) = true).
  { clear - Hn H2. destruct ip as [|d ip]; [congruence|]. destruct ip; [destruct (d =? 48); reflexivity|]. destruct (d =? 48); [discriminate H2|reflexivity]. }
  rewrite OK. cbn [negb].
  assert (E1 : (match (match fp with Some f => 46 :: f | None => [] end) ++ tl2 ++ r with
      | [] => Some (None, (match fp with Some f => 46 :: f | None => [] end) ++ tl2 ++ r)
      | c :: r0 => if c =? 46 then let '(ds, q) := span_digits r0 in match ds with [] => None | _ :: _ => Some (Some ds, q) end
                   else Some (None, (match fp with Some f => 46 :: f | None => [] end) ++ tl2 ++ r) end) = Some (fp, tl2 ++ r)).
  { destruct fp as [f|]; cbn [app].
    - change (46 =? 46) with true. cbv iota. apply nonempty_digits_spec in H3 as [Hf H3].
      rewrite span_digits_app; auto. 2:{ destruct (tl2 ++ r); tauto. }
      destruct f; [congruence|reflexivity].
    - destruct (tl2 ++ r) as [|c q]; auto. destruct (N.eqb_spec c 46); [tauto|reflexivity]. }
  rewrite E1. cbn [obind]. clear E1 S2.
  assert (E2 : (match tl2 ++ r with
      | [] => Some (None, tl2 ++ r)
      | c :: r0 => if (c =? 101) || (c =? 69) then
          let '(eneg, r1) := match r0 with [] => (false, r0) | d :: r' => if d =? 45 then (true, r') else if d =? 43 then (false, r') else (false, r0) end in
          let '(ds, q) := span_digits r1 in match ds with [] => None | _ :: _ => Some (Some (eneg, ds), q) end
          else Some (None, tl2 ++ r) end) = Some (ex, r)).
  { unfold tl2. destruct ex as [[en ds]|]; cbn [app].
    - change ((101 =? 101) || (101 =? 69)) with true. cbv iota. apply nonempty_digits_spec in H4 as [Hd H4].
      assert (ED : match ((if en then [45] else []) ++ ds) ++ r with
         | [] => (false, ((if en then [45] else []) ++ ds) ++ r)
         | d :: r' => if d =? 45 then (true, r') else if d =? 43 then (false, r') else (false, ((if en then [45] else []) ++ ds) ++ r) end = (en, ds ++ r)).
      { destruct en; [reflexivity|]. destruct ds as [|d ds]; [congruence|]. cbn [app forallb] in *.
        apply andb_prop in H4 as [H4 _]. apply is_digit_range in H4.
        destruct (N.eqb_spec d 45); [lia|]. destruct (N.eqb_spec d 43); [lia|]. reflexivity. }
      rewrite ED. rewrite span_digits_app; auto.
      + destruct ds; [congruence|reflexivity].
      + destruct r; auto. apply Hr.
    - destruct r as [|c q]; auto. cbn in Hr. destruct (N.eqb_spec c 101); [tauto|]. destruct (N.eqb_spec c 69); [tauto|]. reflexivity. }
  rewrite E2. reflexivity.
Qed.

(** ** Values *)
Lemma skip_ws_nonws c r : jws c = false -> skip_ws (c :: r) = c :: r.
Proof. intros H. cbn [skip_ws]. now rewrite H. Qed.
Definition head_ok (s : str) : Prop := exists c r, s = c :: r /\ jws c = false /\ c <> 93 /\ c <> 125.
Lemma print_num_head n : wf_num n = true ->
  exists c r, print_num n = c :: r /\ ((c =? 45) || is_digit c) = true.
Proof.
  unfold wf_num, print_num. intros H.
  apply andb_prop in H as [H H4]. apply andb_prop in H as [H H3]. apply andb_prop in H as [H1 H2].
  apply nonempty_digits_spec in H1 as [Hn H1].
  destruct (jneg n); [eexists _, _; split; reflexivity|]. destruct (jint n) as [|d ip]; [congruence|].
  cbn [forallb] in H1. apply andb_prop in H1 as [H1 _].
  eexists _, _; split; [reflexivity|]. now rewrite H1, orb_true_r.
Qed.
Lemma numhead_range c : ((c =? 45) || is_digit c) = true -> c = 45 \/ 48 <= c <= 57.
Proof.
  intros H. apply orb_prop in H as [H|H]; [left; now apply N.eqb_eq|right].
  apply is_digit_range in H. lia.
Qed.
Lemma jws_false c : c <> 32 -> c <> 10 -> c <> 9 -> c <> 13 -> jws c = false.
Proof.
  intros. unfold jws. destruct (N.eqb_spec c 32); [congruence|]. destruct (N.eqb_spec c 10); [congruence|].
  destruct (N.eqb_spec c 9); [congruence|]. destruct (N.eqb_spec c 13); [congruence|]. reflexivity.
Qed.
Lemma print_head j : wf_json j = true -> head_ok (print_json j).
Proof.
  unfold head_ok.
  destruct j as [|b|n|s|l|l]; cbn [print_json wf_json]; intros H;
    try (eexists _, _; split; [reflexivity|]; split; [reflexivity|split; cbn; discriminate]).
  - destruct b; eexists _, _; split; try reflexivity; split; try reflexivity; split; cbn; discriminate.
  - destruct (print_num_head n H) as (c & r & -> & Hc). apply numhead_range in Hc.
    exists c, r. split; [reflexivity|]. split; [apply jws_false; lia|split; lia].
  - destruct (pstr_print_ostr s []) as (t & -> & _). exists 34, t. repeat split; lia.
Qed.

Definition kvtext (kv : option str * json) : str := print_ostr (fst kv) ++ 58 :: print_json (snd kv).


Definition print_ok (j : json) : Prop := forall fuel r, (2 * length (print_json j) <= fuel)%nat -> wf_json j = true ->
  num_stop r -> pval fuel (print_json j ++ r) = Some (j, r).
Lemma pelems_print l : Forall print_ok l ->
  forallb wf_json l = true -> l <> [] -> forall fuel r, (2 * length (join 44 (map print_json l)) + 1 <= fuel)%nat ->
  pelems fuel (join 44 (map print_json l) ++ 93 :: r) = Some (l, r).
Proof.
  induction 1 as [|j l Hj Hl IH]; intros Hw Hne fuel r Hf; [congruence|].
  cbn [forallb] in Hw. apply andb_prop in Hw as [Hw1 Hw2].
  destruct fuel as [|fuel]; [lia|]. cbn [pelems].
  destruct l as [|j2 l].
  - cbn [map join] in *. rewrite Hj by (try (cbn; repeat split); auto; lia). reflexivity.
  - cbn [map] in *. rewrite join_cons2 in *. rewrite <- app_assoc. cbn [app].
    rewrite app_length in Hf. cbn [length] in Hf.
    rewrite Hj by (try (cbn; repeat split); auto; lia). cbn [obind].
    rewrite skip_ws_nonws by reflexivity. change (44 =? 44) with true. cbv iota.
    rewrite IH by (auto; try discriminate; cbn [map]; lia). reflexivity.
Qed.
Lemma pmems_print l : Forall (fun kv => print_ok (snd kv)) l ->
  forallb (fun kv => wf_json (snd kv)) l = true -> l <> [] -> forall fuel r, (2 * length (join 44 (map kvtext l)) + 1 <= fuel)%nat ->
  pmems fuel (join 44 (map kvtext l) ++ 125 :: r) = Some (l, r).
Proof.
  induction 1 as [|[k j] l Hj Hl IH]; intros Hw Hne fuel r Hf; [congruence|].
  cbn [forallb snd] in *. apply andb_prop in Hw as [Hw1 Hw2].
  destruct fuel as [|fuel]; [lia|]. cbn [pmems].
  assert (D : exists tl, join 44 (map kvtext ((k, j) :: l)) ++ 125 :: r = print_ostr k ++ 58 :: print_json j ++ tl /\
     num_stop tl /\ (2 * length (print_json j) <= fuel)%nat /\
     ((l = [] /\ tl = 125 :: r) \/ (l <> [] /\ tl = 44 :: join 44 (map kvtext l) ++ 125 :: r /\
        (2 * length (join 44 (map kvtext l)) + 1 <= fuel)%nat))).
  { destruct l as [|kv2 l].
    - exists (125 :: r). cbn [map join kvtext fst snd] in *. unfold kvtext in *. cbn [fst snd] in *.
      rewrite app_length in Hf. cbn [length] in Hf. rewrite <- app_assoc. cbn [app].
      split; [reflexivity|]. split; [cbn; repeat split; lia|]. split; [lia|]. left; auto.
    - exists (44 :: join 44 (map kvtext (kv2 :: l)) ++ 125 :: r). cbn [map] in *. rewrite join_cons2 in *.
      unfold kvtext at 1 in Hf. unfold kvtext at 1. cbn [fst snd] in *.
      rewrite !app_length in Hf. cbn [length] in Hf. repeat (rewrite <- app_assoc || cbn [app]).
      split; [reflexivity|]. split; [cbn; repeat split; lia|]. split; [lia|]. right. split; [discriminate|].
      split; [reflexivity|lia]. }
  destruct D as (tl & -> & Hs & Hl1 & Hc).
  destruct (pstr_print_ostr k (58 :: print_json j ++ tl)) as (t & -> & u & P1 & P2).
  cbn [app]. rewrite skip_ws_nonws by reflexivity. change (34 =? 34) with true. cbv iota.
  rewrite P1. cbn [obind]. rewrite skip_ws_nonws by reflexivity. change (58 =? 58) with true. cbv iota.
  rewrite Hj by auto. cbn [obind].
  destruct Hc as [[-> ->]|(Hne2 & -> & Hl2)].
  - rewrite skip_ws_nonws by reflexivity. cbv iota beta. change (125 =? 44) with false. change (125 =? 125) with true.
    cbv iota. now rewrite P2.
  - rewrite skip_ws_nonws by reflexivity. change (44 =? 44) with true. cbv iota.
    rewrite IH by auto. cbn [obind]. now rewrite P2.
Qed.
Lemma head_join l : forallb wf_json l = true -> l <> [] ->
  exists c r, join 44 (map print_json l) = c :: r /\ jws c = false /\ c <> 93.
Proof.
  destruct l as [|j l]; [congruence|]. cbn [forallb]. intros H _. apply andb_prop in H as [H _].
  apply print_head in H as (c & r & E & H1 & H2 & _). destruct l; cbn [map].
  - cbn [join]. exists c, r. auto.
  - rewrite join_cons2, E. eexists c, _. split; [reflexivity|]. auto.
Qed.
Lemma print_ok_all j : print_ok j.
Proof.
  induction j as [|b|n|s|l IH|l IH] using json_ind2; unfold print_ok; intros fuel r Hf Hw Hs.
  - destruct fuel; [cbn in Hf; lia|]. reflexivity.
  - destruct fuel; [destruct b; cbn in Hf; lia|]. destruct b; reflexivity.
  - cbn [print_json wf_json] in *. destruct (print_num_head n Hw) as (c & t & E & Hc).
    destruct fuel; [rewrite E in Hf; cbn in Hf; lia|]. cbn [pval].
    pose proof (pnum_print n r Hw Hs) as HP. rewrite E in *. cbn [app] in *.
    pose proof Hc as Hc'. apply numhead_range in Hc'. rewrite skip_ws_nonws by (apply jws_false; lia).
    repeat (match goal with |- context [c =? ?b] =>
       lazymatch b with 45 => fail | _ => destruct (N.eqb_spec c b); [lia|] end end).
    rewrite Hc, HP. reflexivity.
  - cbn [print_json] in *. destruct (pstr_print_ostr s r) as (t & E & u & P1 & P2). rewrite E in *.
    destruct fuel; [cbn in Hf; lia|]. cbn [pval app]. rewrite skip_ws_nonws by reflexivity.
    change (34 =? 34) with true. cbv iota. rewrite P1. cbn [obind]. now rewrite P2.
  - cbn [print_json wf_json] in *. destruct fuel; [cbn in Hf; lia|]. cbn [pval app].
    rewrite skip_ws_nonws by reflexivity. change (91 =? 34) with false. change (91 =? 91) with true. cbv iota.
    cbn [length] in Hf. rewrite app_length in Hf. cbn [length] in Hf. rewrite <- app_assoc. cbn [app].
    destruct l as [|j l].
    + reflexivity.
    + destruct (head_join (j :: l) Hw ltac:(discriminate)) as (c & t & E & H1 & H2).
      assert (P : pelems fuel (join 44 (map print_json (j :: l)) ++ 93 :: r) = Some (j :: l, r))
        by (apply pelems_print; auto; [discriminate|lia]).
      rewrite E in *. cbn [app] in *. rewrite skip_ws_nonws by auto.
      destruct (N.eqb_spec c 93); [congruence|]. rewrite P. reflexivity.
  - cbn [print_json wf_json] in *. destruct fuel; [cbn in Hf; lia|]. cbn [pval app].
    rewrite skip_ws_nonws by reflexivity. change (123 =? 34) with false. change (123 =? 91) with false.
    change (123 =? 123) with true. cbv iota.
    cbn [length] in Hf. rewrite app_length in Hf. cbn [length] in Hf. rewrite <- app_assoc. cbn [app].
    change (fun kv => print_ostr (fst kv) ++ 58 :: print_json (snd kv)) with kvtext in *.
    destruct l as [|kv l].
    + reflexivity.
    + assert (E : exists t, join 44 (map kvtext (kv :: l)) = 34 :: t).
      { destruct (pstr_print_ostr (fst kv) []) as (t & E & _). cbn [map]. destruct l; cbn [map join].
        - unfold kvtext. rewrite E. eexists; reflexivity.
        - unfold kvtext at 1. rewrite E. eexists; reflexivity. }
      destruct E as (t & E).
      assert (P : pmems fuel (join 44 (map kvtext (kv :: l)) ++ 125 :: r) = Some (kv :: l, r))
        by (apply pmems_print; auto; [discriminate|lia]).
      rewrite E in *. cbn [app] in *. rewrite skip_ws_nonws by reflexivity.
      change (34 =? 125) with false. cbv iota. rewrite P. reflexivity.
Qed.
Theorem parse_print j : wf_json j = true -> parse_json (print_json j) = Some j.
Proof.
  intros H. unfold parse_json. pose proof (print_ok_all j (2 * length (print_json j) + 2)%nat []) as P.
  rewrite app_nil_r in P. rewrite P by (exact I || auto || lia). reflexivity.
Qed.

(** ** The fuel of the reader is never exhausted *)
Ltac inv_obind H := match type of H with
  | obind ?e _ = Some _ => let E := fresh "E" in destruct e eqn:E; cbn [obind] in H; [|discriminate H]
  end.
Lemma skip_ws_len s : (length (skip_ws s) <= length s)%nat.
Proof. induction s as [|c s IH]; auto. cbn [skip_ws]. destruct (jws c); cbn [length]; lia. Qed.
Lemma pstr_len_aux n : forall s u q, (length s <= n)%nat -> pstr s = Some (u, q) -> (length q < length s)%nat.
Proof.
  induction n; intros s u q Hn H.
  - destruct s; [discriminate|cbn in Hn; lia].
  - destruct s as [|c r]; [discriminate|]. cbn [pstr length] in *.
    destruct (c =? 34). { injection H as <- <-. lia. }
    destruct (c =? 92).
    + destruct r as [|e r1]; [discriminate|]. cbn [length] in *. destruct (simple_escape e).
      * inv_obind H. destruct p as [u' q']. injection H as <- <-. apply IHn in E; lia.
      * destruct (e =? 117); [|discriminate]. destruct r1 as [|h1 [|h2 [|h3 [|h4 r2]]]]; try discriminate.
        cbn [length] in *. destruct (hex4 h1 h2 h3 h4); [|discriminate]. inv_obind H. destruct p as [u' q'].
        injection H as <- <-. apply IHn in E; lia.
    + destruct (c <? 32); [discriminate|]. inv_obind H. destruct p as [u' q']. injection H as <- <-. apply IHn in E; lia.
Qed.
Lemma pstr_len s u q : pstr s = Some (u, q) -> (length q < length s)%nat.
Proof. intros. eapply pstr_len_aux; eauto. Qed.
Lemma span_len s a b : span_digits s = (a, b) -> length s = (length a + length b)%nat.
Proof.
  revert a b; induction s as [|c s IH]; cbn [span_digits]; intros a b H.
  - injection H as <- <-. auto.
  - destruct (is_digit c).
    + destruct (span_digits s) as [x y]. injection H as <- <-. cbn [length]. rewrite (IH x y); auto.
    + injection H as <- <-. auto.
Qed.
Lemma pnum_len s n q : pnum s = Some (n, q) -> (length q < length s)%nat.
Proof.
  unfold pnum. destruct (match s with [] => (false, s) | c :: r => if c =? 45 then (true, r) else (false, s) end) as [ng s1] eqn:E1.
  assert (L1 : (length s1 <= length s)%nat).
  { destruct s as [|c r]; [injection E1 as <- <-; auto|]. destruct (c =? 45); injection E1 as <- <-; cbn [length]; lia. }
  destruct (span_digits s1) as [ip s2] eqn:E2. apply span_len in E2.
  destruct ip as [|d ip]; [discriminate|]. cbn [length] in E2.
  destruct (negb _); [discriminate|]. intros H. inv_obind H. destruct p as [fp s3].
  assert (L3 : (length s3 <= length s2)%nat).
  { destruct s2 as [|c r]; [injection E as <- <-; auto|]. destruct (c =? 46).
    - destruct (span_digits r) as [ds q'] eqn:E3. apply span_len in E3. destruct ds; [discriminate|].
      injection E as <- <-. cbn [length] in *. lia.
    - injection E as <- <-. auto. }
  inv_obind H. destruct p as [ex s4]. injection H as <- <-.
  assert (L4 : (length s4 <= length s3)%nat).
  { destruct s3 as [|c r]; [injection E0 as <- <-; auto|]. destruct ((c =? 101) || (c =? 69)).
    - destruct (match r with [] => (false, r) | d0 :: r' => if d0 =? 45 then (true, r') else if d0 =? 43 then (false, r') else (false, r) end) as [en r1] eqn:E3.
      assert (length r1 <= length r)%nat.
      { destruct r as [|d0 r']; [injection E3 as <- <-; auto|]. destruct (d0 =? 45); [injection E3 as <- <-; cbn [length]; lia|].
        destruct (d0 =? 43); injection E3 as <- <-; cbn [length]; lia. }
      destruct (span_digits r1) as [ds q'] eqn:E4. apply span_len in E4. destruct ds; [discriminate|].
      injection E0 as <- <-. cbn [length] in *. lia.
    - injection E0 as <- <-. auto. }
  lia.
Qed.
Lemma strip_prefix_len p s r : strip_prefix p s = Some r -> (length r <= length s)%nat.
Proof. intros H. apply strip_prefix_spec in H. subst. rewrite app_length. lia. Qed.
Lemma p_len f :
  (forall s v r, pval f s = Some (v, r) -> (length r < length s)%nat) /\
  (forall s v r, pelems f s = Some (v, r) -> (length r < length s)%nat) /\
  (forall s v r, pmems f s = Some (v, r) -> (length r < length s)%nat).
Proof.
  induction f as [|f (IH1 & IH2 & IH3)]; [repeat split; discriminate|]. repeat split; intros s v r H.
  - cbn [pval] in H. pose proof (skip_ws_len s) as L. destruct (skip_ws s) as [|c t]; [discriminate|]. cbn [length] in L.
    pose proof (skip_ws_len t) as L2.
    destruct (c =? 34). { inv_obind H. destruct p. injection H as <- <-. apply pstr_len in E. lia. }
    destruct (c =? 91).
    { destruct (skip_ws t) as [|d q]; [discriminate|]. cbn [length] in L2. destruct (d =? 93).
      - injection H as <- <-. lia.
      - inv_obind H. destruct p. injection H as <- <-. apply IH2 in E. lia. }
    destruct (c =? 123).
    { destruct (skip_ws t) as [|d q]; [discriminate|]. cbn [length] in L2. destruct (d =? 125).
      - injection H as <- <-. lia.
      - inv_obind H. destruct p. injection H as <- <-. apply IH3 in E. lia. }
    destruct (c =? 110). { inv_obind H. injection H as <- <-. apply strip_prefix_len in E. lia. }
    destruct (c =? 116). { inv_obind H. injection H as <- <-. apply strip_prefix_len in E. lia. }
    destruct (c =? 102). { inv_obind H. injection H as <- <-. apply strip_prefix_len in E. lia. }
    destruct ((c =? 45) || is_digit c); [|discriminate]. inv_obind H. destruct p. injection H as <- <-.
    apply pnum_len in E. cbn [length] in E. lia.
  - cbn [pelems] in H. inv_obind H. destruct p as [v0 r0]. apply IH1 in E. pose proof (skip_ws_len r0) as L.
    destruct (skip_ws r0) as [|c q]; [discriminate|]. cbn [length] in L. destruct (c =? 44).
    + inv_obind H. destruct p. injection H as <- <-. apply IH2 in E0. lia.
    + destruct (c =? 93); [|discriminate]. injection H as <- <-. lia.
  - cbn [pmems] in H. pose proof (skip_ws_len s) as L. destruct (skip_ws s) as [|c t]; [discriminate|]. cbn [length] in L.
    destruct (c =? 34); [|discriminate]. inv_obind H. destruct p as [u q0]. apply pstr_len in E.
    pose proof (skip_ws_len q0) as L2. destruct (skip_ws q0) as [|d q1]; [discriminate|]. cbn [length] in L2.
    destruct (d =? 58); [|discriminate]. inv_obind H. destruct p as [v0 q2]. apply IH1 in E0.
    pose proof (skip_ws_len q2) as L3. destruct (skip_ws q2) as [|e q]; [discriminate|]. cbn [length] in L3.
    destruct (e =? 44).
    + inv_obind H. destruct p. injection H as <- <-. apply IH3 in E1. lia.
    + destruct (e =? 125); [|discriminate]. injection H as <- <-. lia.
Qed.
Lemma pval_S f s : pval (S f) s =

    match skip_ws s with
    | [] => None
    | c :: r =>
      if c =? 34 then let? (u, q) := pstr r in Some (JStr (join_units u), q)
      else if c =? 91 then
        match skip_ws r with
        | d :: q => if d =? 93 then Some (JArr [], q)
                    else let? (l, q') := pelems f r in Some (JArr l, q')
        | [] => None
        end
      else if c =? 123 then
        match skip_ws r with
        | d :: q => if d =? 125 then Some (JObj [], q)
                    else let? (l, q') := pmems f r in Some (JObj l, q')
        | [] => None
        end
      else if c =? 110 then let? q := strip_prefix (lit "ull") r in Some (JNull, q)
      else if c =? 116 then let? q := strip_prefix (lit "rue") r in Some (JBool true, q)
      else if c =? 102 then let? q := strip_prefix (lit "alse") r in Some (JBool false, q)
      else if (c =? 45) || is_digit c then
        let? (n, q) := pnum (c :: r) in Some (JNum n, q)
      else None
    end.
Proof. reflexivity. Qed.
Lemma pelems_S f s : pelems (S f) s =

    let? (v, r) := pval f s in
    match skip_ws r with
    | c :: q => if c =? 44 then let? (l, q') := pelems f q in Some (v :: l, q')
                else if c =? 93 then Some ([v], q) else None
    | [] => None
    end.
Proof. reflexivity. Qed.
Lemma pmems_S f s : pmems (S f) s =

    match skip_ws s with
    | c :: r =>
      if c =? 34 then
        let? (u, q0) := pstr r in
        match skip_ws q0 with
        | d :: q1 =>
          if d =? 58 then
            let? (v, q2) := pval f q1 in
            match skip_ws q2 with
            | e :: q => if e =? 44 then let? (l, q') := pmems f q in Some ((join_units u, v) :: l, q')
                        else if e =? 125 then Some ([(join_units u, v)], q) else None
            | [] => None
            end
          else None
        | [] => None
        end
      else None
    | [] => None
    end.
Proof. reflexivity. Qed.
Lemma p_fuel f :
  (forall s, (2 * length s + 1 <= f)%nat -> pval (S f) s = pval f s) /\
  (forall s, (2 * length s + 2 <= f)%nat -> pelems (S f) s = pelems f s) /\
  (forall s, (2 * length s + 1 <= f)%nat -> pmems (S f) s = pmems f s).
Proof.
  induction f as [|f (IH1 & IH2 & IH3)]; [repeat split; intros; lia|].
  repeat split; intros s Hs.
  - rewrite (pval_S (S f)), (pval_S f).
    pose proof (skip_ws_len s) as L. destruct (skip_ws s) as [|c t]; [reflexivity|]. cbn [length] in L.
    rewrite IH2 by lia. rewrite IH3 by lia. reflexivity.
  - rewrite (pelems_S (S f)), (pelems_S f). rewrite IH1 by lia.
    destruct (pval f s) as [[v r]|] eqn:E; [|reflexivity]. cbn [obind].
    apply (proj1 (p_len f)) in E. pose proof (skip_ws_len r) as L.
    destruct (skip_ws r) as [|c q]; [reflexivity|]. cbn [length] in L. rewrite IH2 by lia. reflexivity.
  - rewrite (pmems_S (S f)), (pmems_S f).
    pose proof (skip_ws_len s) as L. destruct (skip_ws s) as [|c t]; [reflexivity|]. cbn [length] in L.
    destruct (c =? 34); [|reflexivity]. destruct (pstr t) as [[u q0]|] eqn:E; [|reflexivity]. cbn [obind].
    apply pstr_len in E. pose proof (skip_ws_len q0) as L2. destruct (skip_ws q0) as [|d q1]; [reflexivity|]. cbn [length] in L2.
    destruct (d =? 58); [|reflexivity]. rewrite IH1 by lia. destruct (pval f q1) as [[v q2]|] eqn:E2; [|reflexivity]. cbn [obind].
    apply (proj1 (p_len f)) in E2. pose proof (skip_ws_len q2) as L3. destruct (skip_ws q2) as [|e q]; [reflexivity|].
    cbn [length] in L3. rewrite IH3 by lia. reflexivity.
Qed.
Theorem pval_fuel s f : (2 * length s + 2 <= f)%nat -> pval f s = pval (2 * length s + 2) s.
Proof.
  intros H. induction f as [|f IH]; [lia|].
  destruct (Nat.eq_dec (S f) (2 * length s + 2)) as [E|E]; [now rewrite <- E|].
  rewrite (proj1 (p_fuel f)) by lia. apply IH. lia.
Qed.

(** ** Shape of written text *)
Definition printable (s : str) : bool := forallb (fun c => 32 <=? c) s.
Lemma digits_printable s : forallb is_digit s = true -> printable s = true.
Proof.
  unfold printable. rewrite !forallb_forall. intros H x Hx. specialize (H x Hx). apply is_digit_range in H.
  apply N.leb_le. lia.
Qed.
Lemma printable_app a b : printable (a ++ b) = printable a && printable b.
Proof. apply forallb_app. Qed.
Lemma printable_cons c b : printable (c :: b) = (32 <=? c) && printable b.
Proof. reflexivity. Qed.
Lemma hexdig_printable n : (32 <=? hexdig n) = true.
Proof. unfold hexdig. destruct (n <? 10); apply N.leb_le; lia. Qed.
Lemma esc_printable c : printable (esc_char c) = true.
Proof.
  unfold esc_char. repeat (match goal with |- context [?a =? ?b] => destruct (a =? b); [reflexivity|] end).
  destruct (N.ltb_spec c 32).
  - rewrite !printable_cons, !hexdig_printable. reflexivity.
  - rewrite printable_cons. apply N.leb_le in H. now rewrite H.
Qed.
Lemma print_ostr_printable s : printable (print_ostr s) = true.
Proof.
  destruct s as [s|]; [|reflexivity]. cbn [print_ostr]. unfold print_str. rewrite printable_cons, printable_app.
  assert (H : printable (concat (map esc_char s)) = true).
  { induction s; auto. cbn [map concat]. now rewrite printable_app, esc_printable, IHs. }
  now rewrite H.
Qed.
Lemma print_num_printable n : wf_num n = true -> printable (print_num n) = true.
Proof.
  unfold wf_num, print_num. intros H.
  apply andb_prop in H as [H H4]. apply andb_prop in H as [H H3]. apply andb_prop in H as [H1 H2].
  apply nonempty_digits_spec in H1 as [_ H1]. rewrite !printable_app.
  rewrite (digits_printable _ H1).
  assert (A : printable (if jneg n then [45] else []) = true) by (now destruct (jneg n)). rewrite A.
  assert (B : printable (match jfrac n with Some f => 46 :: f | None => [] end) = true).
  { destruct (jfrac n); auto. apply nonempty_digits_spec in H3 as [_ H3]. rewrite printable_cons. now rewrite digits_printable. }
  rewrite B. destruct (jexp n) as [[en ds]|]; auto. apply nonempty_digits_spec in H4 as [_ H4].
  rewrite printable_cons, printable_app, (digits_printable ds) by auto. now destruct en.
Qed.
Lemma join_printable c ls : (32 <=? c) = true -> Forall (fun l => printable l = true) ls -> printable (join c ls) = true.
Proof.
  intros Hc H. induction H as [|l ls Hl Hls IH]; auto. destruct ls; cbn [join]; auto.
  rewrite printable_app, printable_cons, Hl, Hc. cbn [andb]. exact IH.
Qed.
Theorem print_json_printable j : wf_json j = true -> printable (print_json j) = true.
Proof.
  induction j as [|b|n|s|l IH|l IH] using json_ind2; cbn [wf_json print_json]; intros H.
  - reflexivity.
  - now destruct b.
  - now apply print_num_printable.
  - apply print_ostr_printable.
  - rewrite printable_cons, printable_app. rewrite join_printable; auto.
    clear - IH H. induction IH; cbn [map]; constructor; cbn [forallb] in H; apply andb_prop in H as [H1 H2]; auto.
  - rewrite printable_cons, printable_app. rewrite join_printable; auto.
    clear - IH H. induction IH; cbn [map]; constructor; cbn [forallb] in H; apply andb_prop in H as [H1 H2]; auto.
    rewrite printable_app, printable_cons, print_ostr_printable. cbn [andb]. auto.
Qed.
(** one clean line: no newline, '{' first, '}' last *)
Definition clean_line (s : str) : Prop := ~ In NL s /\ exists t, s = 123 :: t ++ [125].
Lemma print_obj_clean l : wf_json (JObj l) = true -> clean_line (print_json (JObj l)).
Proof.
  intros H. split.
  - intros Hin. apply print_json_printable in H. unfold printable in H. rewrite forallb_forall in H.
    apply H in Hin. discriminate.
  - cbn [print_json]. eexists. reflexivity.
Qed.

(** ** Decoding what was encoded *)
Lemma acc_int_fold ds : forallb is_digit ds = true -> forall acc,
  fold_left (fun a c => a * 10 + (c - 48)) ds acc <= U64MAX ->
  acc_int acc ds = (fold_left (fun a c => a * 10 + (c - 48)) ds acc, 0%Z).
Proof.
  induction ds as [|d ds IH]; intros Hd acc H; [reflexivity|]. cbn [acc_int fold_left forallb] in *.
  apply andb_prop in Hd as [Hd1 Hd2].
  assert (G : forall ds a, a <= fold_left (fun a c => a * 10 + (c - 48)) ds a).
  { clear. induction ds as [|d ds IH]; intros a; cbn [fold_left]; [lia|]. specialize (IH (a * 10 + (d - 48))). lia. }
  pose proof (G ds (acc * 10 + (d - 48))) as G1.
  destruct (N.leb_spec (acc * 10 + (d - 48)) U64MAX); [|lia]. apply IH; auto.
Qed.
Lemma classify_nat neg n : n <= U64MAX ->
  classify {| jneg := neg; jint := dec_of_N n; jfrac := None; jexp := None |} =
  if neg then if (n =? 0) || (9223372036854775808 <? n) then NF64 (flt_neg (f64_of_N n)) else NI64 (- Z.of_N n) else NU64 n.
Proof.
  intros H. unfold classify. cbn [jint jfrac jexp jneg].
  pose proof (digits_N_dec n) as D. unfold digits_N in D.
  rewrite acc_int_fold by (try rewrite D; auto using dec_of_N_digits). rewrite D. reflexivity.
Qed.
Lemma wf_nat neg n : wf_num {| jneg := neg; jint := dec_of_N n; jfrac := None; jexp := None |} = true.
Proof.
  unfold wf_num. cbn [jint jfrac jexp]. rewrite !andb_true_r. apply andb_true_intro. split.
  - unfold nonempty_digits. pose proof (dec_of_N_nonnil n). pose proof (dec_of_N_digits n). destruct (dec_of_N n); auto; congruence.
  - destruct (N.eq_dec n 0) as [->|Hn]; [reflexivity|]. pose proof (dec_of_N_lead n Hn) as L.
    destruct (dec_of_N n) as [|d [|e r]]; auto. cbn [hd] in L. destruct (N.eqb_spec d 48); auto.
Qed.
Lemma wf_e_int z : wf_json (e_int z) = true.
Proof. destruct z; apply wf_nat. Qed.
Lemma d_int_e_int lo hi z : (lo <= z <= hi)%Z -> (-9223372036854775808 <= lo)%Z -> (hi <= 18446744073709551615)%Z ->
  d_int lo hi (e_int z) = Some z.
Proof.
  intros H Hlo Hhi. destruct z as [|p|p].
  - unfold e_int, e_nat, d_int. change (Z.to_N 0) with 0. rewrite classify_nat by (unfold U64MAX; lia).
    change (Z.of_N 0) with 0%Z. destruct (Z.leb_spec 0 hi); [reflexivity|lia].
  - unfold e_int, e_nat, d_int. rewrite classify_nat by (unfold U64MAX; lia). cbv iota.
    replace (Z.of_N (Z.to_N (Z.pos p))) with (Z.pos p) by lia. destruct (Z.leb_spec (Z.pos p) hi); [reflexivity|lia].
  - unfold e_int, d_int. rewrite classify_nat by (unfold U64MAX; lia). cbv iota.
    destruct (N.eqb_spec (N.pos p) 0); [lia|]. destruct (N.ltb_spec 9223372036854775808 (N.pos p)); [lia|]. cbn [orb].
    replace (- Z.of_N (N.pos p))%Z with (Z.neg p) by lia.
    destruct (Z.leb_spec lo (Z.neg p)); [|lia]. destruct (Z.leb_spec (Z.neg p) hi); [reflexivity|lia].
Qed.
Lemma d_u8_e n : n <= 255 -> d_u8 (e_int (Z.of_N n)) = Some n.
Proof. intros. unfold d_u8. rewrite d_int_e_int by lia. cbn. f_equal. lia. Qed.
Lemma d_u32_e n : n <= 4294967295 -> d_u32 (e_int (Z.of_N n)) = Some n.
Proof. intros. unfold d_u32. rewrite d_int_e_int by lia. cbn. f_equal. lia. Qed.

(** ** Struct fields *)
Lemma field_of_nodup kvs n : NoDup (map fst kvs) ->
  field_of kvs n = Some (option_map snd (find (fun kv => okey_eqb n (fst kv)) kvs)).
Proof.
  unfold field_of. induction kvs as [|[k v] kvs IH]; intros H; [reflexivity|].
  cbn [map fst] in H. inversion H as [|? ? H1 H2]; subst. cbn [filter find fst]. destruct (okey_eqb n k) eqn:E; [|auto].
  assert (F : filter (fun kv => okey_eqb n (fst kv)) kvs = []).
  { destruct (filter _ kvs) as [|kv t] eqn:F; auto. exfalso. apply H1.
    assert (I : In kv (filter (fun kv => okey_eqb n (fst kv)) kvs)) by (rewrite F; left; auto).
    apply filter_In in I as [I1 I2]. destruct k as [k|], kv as [[k'|] v']; try discriminate. cbn in *.
    apply str_eqb_eq in E, I2. subst. apply in_map_iff. exists (Some k', v'). auto. }
  rewrite F. reflexivity.
Qed.
