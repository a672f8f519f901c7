(** The reader of [Json.v] accepts exactly the grammar of [SpecJson.v]. *)
From Coq Require Import Lia.
From Verif Require Import Base Spec Str Dec Flt FltProofs Json JsonProofs ColorProofs SpecJson.
Local Open Scope N_scope.

(** ** White space *)
Lemma jws_spec c : jws c = true <-> c = 32 \/ c = 9 \/ c = 10 \/ c = 13.
Proof. unfold jws. rewrite !Bool.orb_true_iff, !N.eqb_eq. tauto. Qed.
Lemma blank_skip w s : blank w -> skip_ws (w ++ s) = skip_ws s.
Proof. induction 1 as [|c w H _ IH]; [reflexivity|]. cbn [app skip_ws]. apply jws_spec in H. now rewrite H. Qed.
Lemma skip_split s : exists w, blank w /\ s = w ++ skip_ws s.
Proof.
  induction s as [|c s (w & Hw & E)]; [exists []; split; [constructor|reflexivity]|]. cbn [skip_ws].
  destruct (jws c) eqn:J.
  - exists (c :: w). split; [constructor; [now apply jws_spec|assumption]|]. cbn. now f_equal.
  - exists []. split; [constructor|reflexivity].
Qed.
Lemma skip_nil s : skip_ws s = [] <-> blank s.
Proof.
  split.
  - intros E. destruct (skip_split s) as (w & Hw & ES). rewrite E, app_nil_r in ES. now subst.
  - intros H. rewrite <- (app_nil_r s), blank_skip by assumption. reflexivity.
Qed.
Lemma skip_head s c r : skip_ws s = c :: r -> exists w, blank w /\ s = w ++ c :: r /\ jws c = false.
Proof.
  intros E. destruct (skip_split s) as (w & Hw & ES). rewrite E in ES. exists w. split; [assumption|]. split; [assumption|].
  clear - E. induction s as [|d s IH]; [discriminate|]. cbn [skip_ws] in E. destruct (jws d) eqn:J; [auto|]. now injection E as -> ->.
Qed.
Lemma skip_to w c r : blank w -> jws c = false -> skip_ws (w ++ c :: r) = c :: r.
Proof. intros H J. rewrite blank_skip by assumption. now apply skip_ws_nonws. Qed.

(** ** Strings *)
Lemma simple_escape_spec e c : simple_escape e = Some c <->
  In (e, c) [(34, 34); (92, 92); (47, 47); (98, 8); (102, 12); (110, 10); (114, 13); (116, 9)].
Proof.
  unfold simple_escape. split.
  - destruct (N.eqb_spec e 34) as [->|]; [intros [= <-]; cbn; tauto|].
    destruct (N.eqb_spec e 92) as [->|]; [intros [= <-]; cbn; tauto|].
    destruct (N.eqb_spec e 47) as [->|]; [intros [= <-]; cbn; tauto|]. cbn [orb].
    destruct (N.eqb_spec e 98) as [->|]; [intros [= <-]; cbn; tauto|].
    destruct (N.eqb_spec e 102) as [->|]; [intros [= <-]; cbn; tauto|].
    destruct (N.eqb_spec e 110) as [->|]; [intros [= <-]; cbn; tauto|].
    destruct (N.eqb_spec e 114) as [->|]; [intros [= <-]; cbn; tauto|].
    destruct (N.eqb_spec e 116) as [->|]; [intros [= <-]; cbn; tauto|discriminate].
  - cbn [In]. intros H. repeat (destruct H as [H|H]; [injection H as <- <-; reflexivity|]). contradiction.
Qed.
Lemma hex4_spec a b c d : hex4 a b c d = hexnum [a; b; c; d].
Proof.
  unfold hex4. cbn [hexnum length]. rewrite !hexv_digit. destruct (hexv a), (hexv b), (hexv c), (hexv d); cbn [obind]; try reflexivity.
  change (16 ^ N.of_nat 3) with 4096. change (16 ^ N.of_nat 2) with 256. change (16 ^ N.of_nat 1) with 16. change (16 ^ N.of_nat 0) with 1.
  f_equal. lia.
Qed.
Lemma pstr_unit u t r : unit_text u t -> pstr (t ++ r) = (let? (us, q) := pstr r in Some (u :: us, q)).
Proof.
  intros H. destruct H as [c H1 H2 H3|e c H|h v H1 H2]; cbn [app pstr].
  - destruct (N.eqb_spec c 34); [congruence|]. destruct (N.eqb_spec c 92); [congruence|]. destruct (N.ltb_spec c 32); [lia|reflexivity].
  - change (92 =? 34) with false. change (92 =? 92) with true. cbv iota. apply simple_escape_spec in H. now rewrite H.
  - change (92 =? 34) with false. change (92 =? 92) with true. change (simple_escape 117) with (@None char). change (117 =? 117) with true. cbv iota.
    destruct h as [|a [|b [|c [|d [|]]]]]; try discriminate H1. cbn [app]. now rewrite hex4_spec, H2.
Qed.
Lemma pstr_complete us ts r : Forall2 unit_text us ts -> pstr (concat ts ++ 34 :: r) = Some (us, r).
Proof.
  induction 1 as [|u t us ts H _ IH]; [reflexivity|]. cbn [concat]. rewrite <- app_assoc, (pstr_unit _ _ _ H), IH. reflexivity.
Qed.
Lemma pstr_sound s us r : pstr s = Some (us, r) -> exists ts, Forall2 unit_text us ts /\ s = concat ts ++ 34 :: r.
Proof.
  remember (length s) as n eqn:Hn. assert (L : (length s <= n)%nat) by lia. clear Hn. revert s us L.
  induction n as [|n IH]; intros s us L; (destruct s as [|c s]; [discriminate|]); cbn [length] in L; [lia|]. cbn [pstr].
  destruct (N.eqb_spec c 34) as [->|C1]. { intros [= <- <-]. exists []. split; [constructor|reflexivity]. }
  destruct (N.eqb_spec c 92) as [->|C2].
  - destruct s as [|e s]; [discriminate|]. cbn [length] in L. destruct (simple_escape e) as [x|] eqn:X.
    + destruct (pstr s) as [[u q]|] eqn:P; [|discriminate]. cbn [obind]. intros [= <- <-]. apply IH in P as (ts & F & ->); [|lia].
      exists ([92; e] :: ts). split; [constructor; [apply unit_escape; now apply simple_escape_spec|assumption]|reflexivity].
    + destruct (N.eqb_spec e 117) as [->|]; [|discriminate]. destruct s as [|h1 [|h2 [|h3 [|h4 s]]]]; try discriminate. cbn [length] in L.
      destruct (hex4 h1 h2 h3 h4) as [v|] eqn:H4; [|discriminate].
      destruct (pstr s) as [[u q]|] eqn:P; [|discriminate]. cbn [obind]. intros [= <- <-]. apply IH in P as (ts & F & ->); [|lia].
      exists ((92 :: 117 :: [h1; h2; h3; h4]) :: ts). rewrite hex4_spec in H4.
      split; [constructor; [now apply unit_hex|assumption]|reflexivity].
  - destruct (N.ltb_spec c 32) as [|C3]; [discriminate|].
    destruct (pstr s) as [[u q]|] eqn:P; [|discriminate]. cbn [obind]. intros [= <- <-]. apply IH in P as (ts & F & ->); [|lia].
    exists ([c] :: ts). split; [constructor; [now apply unit_char|assumption]|reflexivity].
Qed.
Lemma join_sound n : forall us s, (length us <= n)%nat -> join_units us = Some s -> unit_chars us s.
Proof.
  induction n as [|n IH]; intros us s L; (destruct us as [|u us]; [intros [= <-]; constructor|]); cbn [length] in L; [lia|].
  destruct u as [c|u]; cbn [join_units].
  - destruct (join_units us) eqn:J; [|discriminate]. intros [= <-]. constructor. apply IH; [lia|assumption].
  - destruct (N.leb_spec 0xD800 u), (N.ltb_spec u 0xDC00); cbn [andb].
    + destruct us as [|[c|v] us]; try discriminate. cbn [length] in L.
      destruct (N.leb_spec 0xDC00 v), (N.ltb_spec v 0xE000); cbn [andb]; try discriminate.
      destruct (join_units us) eqn:J; [|discriminate]. unfold option_map. intros HS.
      assert (ES : s = 0x10000 + 1024 * (u - 0xD800) + (v - 0xDC00) :: l) by (transitivity (65536 + (u - 55296) * 1024 + (v - 56320) :: l); [congruence|f_equal; lia]). rewrite ES. clear HS ES.
      replace u with (0xD800 + (u - 0xD800)) at 1 by lia. replace v with (0xDC00 + (v - 0xDC00)) at 1 by lia.
      constructor; [lia|lia|]. apply IH; [lia|assumption].
    + destruct (N.leb_spec 0xDC00 u), (N.ltb_spec u 0xE000); cbn [andb]; try discriminate; try lia.
      destruct (join_units us) eqn:J; [|discriminate]. intros [= <-]. constructor; [lia|]. apply IH; [lia|assumption].
    + destruct (N.leb_spec 0xDC00 u), (N.ltb_spec u 0xE000); cbn [andb]; try discriminate; try lia.
      destruct (join_units us) eqn:J; [|discriminate]. intros [= <-]. constructor; [lia|]. apply IH; [lia|assumption].
    + destruct (N.leb_spec 0xDC00 u), (N.ltb_spec u 0xE000); cbn [andb]; try discriminate; try lia.
Qed.
Lemma join_complete us s : unit_chars us s -> join_units us = Some s.
Proof.
  induction 1 as [|c us s _ IH|u us s U _ IH|h l us s Hh Hl _ IH]; cbn [join_units].
  - reflexivity.
  - now rewrite IH.
  - rewrite IH. destruct (N.leb_spec 0xD800 u), (N.ltb_spec u 0xDC00), (N.leb_spec 0xDC00 u), (N.ltb_spec u 0xE000); cbn [andb]; try reflexivity; lia.
  - rewrite IH. destruct (N.leb_spec 0xD800 (0xD800 + h)); [|lia]. destruct (N.ltb_spec (0xD800 + h) 0xDC00); [|lia].
    destruct (N.leb_spec 0xDC00 (0xDC00 + l)); [|lia]. destruct (N.ltb_spec (0xDC00 + l) 0xE000); [|lia]. cbn [andb option_map]. do 2 f_equal. lia.
Qed.
Lemma join_spec us s : join_units us = Some s <-> unit_chars us s.
Proof. split; [apply (join_sound (length us)); lia|apply join_complete]. Qed.
Lemma string_sound s us r : pstr s = Some (us, r) -> exists t, 34 :: s = t ++ r /\ string_text (join_units us) t.
Proof.
  intros H. apply pstr_sound in H as (ts & F & ->). exists (34 :: concat ts ++ [34]). split; [cbn; now rewrite <- app_assoc|].
  destruct (join_units us) as [x|] eqn:J.
  - apply string_some with us; [assumption|now apply join_spec].
  - apply string_none with us; [assumption|]. intros x Hx. apply join_spec in Hx. congruence.
Qed.
Lemma string_complete k t r : string_text k t -> exists t' us, t = 34 :: t' /\ pstr (t' ++ r) = Some (us, r) /\ join_units us = k.
Proof.
  intros H. destruct H as [us ts s F U|us ts F U]; exists (concat ts ++ [34]), us; (split; [reflexivity|]);
    (split; [rewrite <- app_assoc; now apply pstr_complete|]).
  - now apply join_spec.
  - destruct (join_units us) as [x|] eqn:J; [|reflexivity]. apply join_spec in J. now apply U in J.
Qed.

(** ** Numbers *)
Lemma digit_spec c : is_digit c = true <-> 48 <= c <= 57.
Proof. unfold is_digit. rewrite Bool.andb_true_iff, !N.leb_le. tauto. Qed.
Lemma digits_all d : Forall (fun c => 48 <= c <= 57) d <-> forallb is_digit d = true.
Proof. rewrite forallb_forall, Forall_forall. split; intros H x Hx; apply digit_spec; auto. Qed.
Lemma span_sound s a b : span_digits s = (a, b) -> s = a ++ b /\ Forall (fun c => 48 <= c <= 57) a.
Proof.
  revert a b. induction s as [|c s IH]; cbn [span_digits]; intros a b H.
  - injection H as <- <-. auto.
  - destruct (is_digit c) eqn:D.
    + destruct (span_digits s) as [x y]. injection H as <- <-. destruct (IH x y eq_refl) as [-> F]. split; [reflexivity|].
      constructor; [now apply digit_spec|assumption].
    + injection H as <- <-. auto.
Qed.
Lemma pnum_sound s n r : pnum s = Some (n, r) -> exists t, num_text n t /\ s = t ++ r.
Proof.
  unfold pnum.
  destruct (match s with [] => (false, s) | c :: q => if c =? 45 then (true, q) else (false, s) end) as [ng s1] eqn:E1.
  assert (S1 : s = (if ng then lit "-" else []) ++ s1).
  { destruct s as [|c q]; [now injection E1 as <- <-|]. destruct (N.eqb_spec c 45) as [->|]; now injection E1 as <- <-. }
  destruct (span_digits s1) as [ip s2] eqn:E2. apply span_sound in E2 as [-> FI].
  destruct ip as [|d ip]; [discriminate|].
  assert (I : negb (if d =? 48 then match ip with [] => true | _ :: _ => false end else true) = false -> int_text (d :: ip)).
  { apply Forall_inv in FI as Fd. apply Forall_inv_tail in FI. destruct (N.eqb_spec d 48) as [->|].
    - destruct ip; [intros _; constructor|discriminate].
    - intros _. constructor; [lia|assumption]. }
  destruct (negb _); [discriminate|]. specialize (I eq_refl). intros H. inv_obind H. destruct p as [fp s3].
  assert (F : exists ft, frac_text fp ft /\ s2 = ft ++ s3).
  { destruct s2 as [|c q]; [injection E as <- <-; exists []; split; [constructor|reflexivity]|].
    destruct (N.eqb_spec c 46) as [->|].
    - destruct (span_digits q) as [ds q'] eqn:E3. apply span_sound in E3 as [-> FD]. destruct ds as [|d0 ds]; [discriminate|].
      injection E as <- <-. exists (lit "." ++ d0 :: ds). split; [constructor; split; [discriminate|assumption]|reflexivity].
    - injection E as <- <-. exists []. split; [constructor|reflexivity]. }
  destruct F as (ft & FT & ->).
  inv_obind H. destruct p as [ex s4]. injection H as <- <-.
  assert (X : exists et, exp_text ex et /\ s3 = et ++ s4).
  { destruct s3 as [|c q]; [injection E0 as <- <-; exists []; split; [constructor|reflexivity]|].
    destruct ((c =? 101) || (c =? 69)) eqn:C.
    - assert (Hc : In [c] [lit "e"; lit "E"]).
      { apply Bool.orb_prop in C as [C|C]; apply N.eqb_eq in C as ->; cbn; auto. }
      destruct (match q with [] => (false, q) | d0 :: r' => if d0 =? 45 then (true, r') else if d0 =? 43 then (false, r') else (false, q) end) as [en r1] eqn:E3.
      assert (G : exists sign, In (en, sign) [(false, []); (false, lit "+"); (true, lit "-")] /\ q = sign ++ r1).
      { destruct q as [|d0 r']; [injection E3 as <- <-; exists []; cbn; auto|].
        destruct (N.eqb_spec d0 45) as [->|]; [injection E3 as <- <-; exists (lit "-"); cbn; auto|].
        destruct (N.eqb_spec d0 43) as [->|]; [injection E3 as <- <-; exists (lit "+"); cbn; auto|].
        injection E3 as <- <-; exists []; cbn; auto. }
      destruct G as (sign & G & ->).
      destruct (span_digits r1) as [ds q'] eqn:E4. apply span_sound in E4 as [-> FD]. destruct ds as [|d0 ds]; [discriminate|].
      injection E0 as <- <-. exists ([c] ++ sign ++ d0 :: ds). split; [|cbn; f_equal; now rewrite <- app_assoc].
      apply exp_some; [assumption|assumption|]. split; [discriminate|assumption].
    - injection E0 as <- <-. exists []. split; [constructor|reflexivity]. }
  destruct X as (et & ET & ->).
  exists ((if ng then lit "-" else []) ++ (d :: ip) ++ ft ++ et). split; [now constructor|].
  rewrite S1. rewrite <- !app_assoc. reflexivity.
Qed.
Lemma pnum_complete n t r : num_text n t -> num_stop r -> pnum (t ++ r) = Some (n, r).
Proof.
  intros H Hr. destruct H as [ng ip fp ft ex et HI HF HE]. rewrite <- !app_assoc. unfold pnum.
  assert (HI' : exists d ip', ip = d :: ip' /\ 48 <= d <= 57 /\ forallb is_digit ip = true /\
            (if d =? 48 then match ip' with [] => true | _ :: _ => false end else true) = true).
  { destruct HI as [|c d Hc Hd].
    - exists 48, []. repeat split; lia.
    - exists c, d. split; [reflexivity|]. split; [lia|]. split.
      + apply digits_all. constructor; [lia|assumption].
      + destruct (N.eqb_spec c 48); [lia|reflexivity]. }
  destruct HI' as (d & ip' & -> & Hd & HD & OK).
  assert (E0 : forall q, (match (if ng then lit "-" else []) ++ (d :: ip') ++ q with
     | [] => (false, (if ng then lit "-" else []) ++ (d :: ip') ++ q)
     | c :: r0 => if c =? 45 then (true, r0) else (false, (if ng then lit "-" else []) ++ (d :: ip') ++ q) end) = (ng, (d :: ip') ++ q)).
  { intros q. destruct ng; [reflexivity|]. cbn [app]. destruct (N.eqb_spec d 45); [lia|reflexivity]. }
  rewrite E0. clear E0.
  assert (S2 : match et ++ r with c :: _ => is_digit c = false /\ c <> 46 | [] => True end).
  { destruct HE as [|e neg sign ds He _ _]; cbn [app].
    - destruct r; auto. cbn in Hr. tauto.
    - destruct He as [<-|[<-|[]]]; cbn; split; try reflexivity; lia. }
  rewrite span_digits_app; [|assumption|].
  2: { destruct HF; cbn [app]; [destruct (et ++ r); tauto|reflexivity]. }
  rewrite OK. cbn [negb].
  assert (E1 : (match ft ++ et ++ r with
      | [] => Some (None, ft ++ et ++ r)
      | c :: r0 => if c =? 46 then let '(ds, q) := span_digits r0 in match ds with [] => None | _ :: _ => Some (Some ds, q) end
                   else Some (None, ft ++ et ++ r) end) = Some (fp, et ++ r)).
  { destruct HF as [|f [Hf1 Hf2]].
    - cbn [app]. destruct (et ++ r) as [|c q]; auto. destruct (N.eqb_spec c 46); [tauto|reflexivity].
    - change ((lit "." ++ f) ++ et ++ r) with (46 :: f ++ et ++ r). change (46 =? 46) with true. cbv iota.
      rewrite span_digits_app; [|now apply digits_all|]. 2:{ destruct (et ++ r); tauto. }
      destruct f; [congruence|reflexivity]. }
  rewrite E1. cbn [obind]. clear E1 S2.
  assert (E2 : (match et ++ r with
      | [] => Some (None, et ++ r)
      | c :: r0 => if (c =? 101) || (c =? 69) then
          let '(eneg, r1) := match r0 with [] => (false, r0) | d :: r' => if d =? 45 then (true, r') else if d =? 43 then (false, r') else (false, r0) end in
          let '(ds, q) := span_digits r1 in match ds with [] => None | _ :: _ => Some (Some (eneg, ds), q) end
          else Some (None, et ++ r) end) = Some (ex, r)).
  { destruct HE as [|e neg sign ds He Hs [Hd1 Hd2]].
    - cbn [app]. destruct r as [|c q]; auto. cbn in Hr. destruct (N.eqb_spec c 101); [tauto|]. destruct (N.eqb_spec c 69); [tauto|]. reflexivity.
    - assert (Hc : exists c, e = [c] /\ ((c =? 101) || (c =? 69)) = true) by (destruct He as [<-|[<-|[]]]; eexists; split; reflexivity).
      destruct Hc as (c & -> & Hc). cbn [app]. rewrite Hc.
      assert (ED : match (sign ++ ds) ++ r with
         | [] => (false, (sign ++ ds) ++ r)
         | d :: r' => if d =? 45 then (true, r') else if d =? 43 then (false, r') else (false, (sign ++ ds) ++ r) end = (neg, ds ++ r)).
      { destruct Hs as [[= <- <-]|[[= <- <-]|[[= <- <-]|[]]]]; [|reflexivity|reflexivity].
        destruct ds as [|x ds]; [congruence|]. apply Forall_inv in Hd2. cbn [app].
        destruct (N.eqb_spec x 45); [lia|]. destruct (N.eqb_spec x 43); [lia|]. reflexivity. }
      rewrite ED. rewrite span_digits_app; [|now apply digits_all|].
      + destruct ds; [congruence|reflexivity].
      + destruct r; auto. apply Hr. }
  rewrite E2. reflexivity.
Qed.
Lemma num_head n t : num_text n t -> exists c q, t = c :: q /\ (c = 45 \/ 48 <= c <= 57).
Proof.
  destruct 1 as [ng ip fp ft ex et HI _ _]. destruct ng; [eexists _, _; split; [reflexivity|auto]|].
  destruct HI as [|c d Hc _]; [exists 48|exists c]; eexists; (split; [reflexivity|right; lia]).
Qed.

(** ** Values *)
Lemma p_sound f :
  (forall s v r, pval f s = Some (v, r) -> exists w t, blank w /\ value_text v t /\ s = w ++ t ++ r) /\
  (forall s v r, pelems f s = Some (v, r) -> exists t, elements_text v t /\ s = t ++ 93 :: r) /\
  (forall s v r, pmems f s = Some (v, r) -> exists t, members_text v t /\ s = t ++ 125 :: r).
Proof.
  induction f as [|f (IH1 & IH2 & IH3)]; [repeat split; discriminate|]. split; [|split]; intros s v r H.
  - rewrite pval_S in H. destruct (skip_ws s) as [|c q] eqn:Hs; [discriminate|].
    apply skip_head in Hs as (w & Hw & -> & _). exists w.
    assert (G : exists t, value_text v t /\ c :: q = t ++ r).
    2:{ destruct G as (t & T & E). exists t. rewrite <- E. auto. }
    destruct (N.eqb_spec c 34) as [->|_].
    { inv_obind H. destruct p as [us r']. injection H as <- <-. apply string_sound in E as (t & -> & T). exists t. split; [now constructor|reflexivity]. }
    destruct (N.eqb_spec c 91) as [->|_].
    { destruct (skip_ws q) as [|d q1] eqn:Hq; [discriminate|]. destruct (N.eqb_spec d 93) as [->|_].
      - injection H as <- <-. apply skip_head in Hq as (w1 & Hw1 & -> & _). exists (lit "[" ++ w1 ++ lit "]").
        split; [now constructor|]. cbn. now rewrite <- app_assoc.
      - inv_obind H. destruct p as [l r']. injection H as <- <-. apply IH2 in E as (t & T & ->). exists (lit "[" ++ t ++ lit "]").
        split; [now constructor|]. cbn. now rewrite <- app_assoc. }
    destruct (N.eqb_spec c 123) as [->|_].
    { destruct (skip_ws q) as [|d q1] eqn:Hq; [discriminate|]. destruct (N.eqb_spec d 125) as [->|_].
      - injection H as <- <-. apply skip_head in Hq as (w1 & Hw1 & -> & _). exists (lit "{" ++ w1 ++ lit "}").
        split; [now constructor|]. cbn. now rewrite <- app_assoc.
      - inv_obind H. destruct p as [l r']. injection H as <- <-. apply IH3 in E as (t & T & ->). exists (lit "{" ++ t ++ lit "}").
        split; [now constructor|]. cbn. now rewrite <- app_assoc. }
    destruct (N.eqb_spec c 110) as [->|_]. { inv_obind H. injection H as <- <-. apply strip_prefix_spec in E as ->. exists (lit "null"). split; [constructor|reflexivity]. }
    destruct (N.eqb_spec c 116) as [->|_]. { inv_obind H. injection H as <- <-. apply strip_prefix_spec in E as ->. exists (lit "true"). split; [constructor|reflexivity]. }
    destruct (N.eqb_spec c 102) as [->|_]. { inv_obind H. injection H as <- <-. apply strip_prefix_spec in E as ->. exists (lit "false"). split; [constructor|reflexivity]. }
    destruct ((c =? 45) || is_digit c); [|discriminate]. inv_obind H. destruct p as [n r']. injection H as <- <-.
    apply pnum_sound in E as (t & T & E). exists t. split; [now constructor|assumption].
  - rewrite pelems_S in H. inv_obind H. destruct p as [v0 r0]. apply IH1 in E as (w & t & Hw & T & ->).
    destruct (skip_ws r0) as [|c q] eqn:Hs; [discriminate|]. apply skip_head in Hs as (w' & Hw' & -> & _).
    destruct (N.eqb_spec c 44) as [->|_].
    + inv_obind H. destruct p as [l r']. injection H as <- <-. apply IH2 in E as (ts & TS & ->).
      exists ((w ++ t ++ w') ++ lit "," ++ ts). split; [now constructor|]. cbn. now rewrite <- !app_assoc.
    + destruct (N.eqb_spec c 93) as [->|_]; [|discriminate]. injection H as <- <-.
      exists (w ++ t ++ w'). split; [now constructor|]. now rewrite <- !app_assoc.
  - rewrite pmems_S in H. destruct (skip_ws s) as [|c q] eqn:Hs; [discriminate|]. apply skip_head in Hs as (w & Hw & -> & _).
    destruct (N.eqb_spec c 34) as [->|_]; [|discriminate]. inv_obind H. destruct p as [us q0]. apply string_sound in E as (kt & EK & KT). rewrite EK. clear EK q.
    destruct (skip_ws q0) as [|d q1] eqn:Hq; [discriminate|]. apply skip_head in Hq as (w1 & Hw1 & -> & _).
    destruct (N.eqb_spec d 58) as [->|_]; [|discriminate]. inv_obind H. destruct p as [v0 q2]. apply IH1 in E as (w2 & t & Hw2 & T & ->).
    destruct (skip_ws q2) as [|e q] eqn:Hs; [discriminate|]. apply skip_head in Hs as (w' & Hw' & -> & _).
    destruct (N.eqb_spec e 44) as [->|_].
    + inv_obind H. destruct p as [l r']. injection H as <- <-. apply IH3 in E as (ts & TS & ->).
      exists ((w ++ kt ++ w1 ++ lit ":" ++ w2 ++ t ++ w') ++ lit "," ++ ts). split; [now constructor|]. repeat (rewrite <- !app_assoc; cbn). reflexivity.
    + destruct (N.eqb_spec e 125) as [->|_]; [|discriminate]. injection H as <- <-.
      exists (w ++ kt ++ w1 ++ lit ":" ++ w2 ++ t ++ w'). split; [now constructor|]. repeat (rewrite <- !app_assoc; cbn). reflexivity.
Qed.
Lemma p_mono f :
  (forall s x, pval f s = Some x -> pval (S f) s = Some x) /\
  (forall s x, pelems f s = Some x -> pelems (S f) s = Some x) /\
  (forall s x, pmems f s = Some x -> pmems (S f) s = Some x).
Proof.
  induction f as [|f (IH1 & IH2 & IH3)]; [repeat split; discriminate|]. split; [|split]; intros s x H.
  - rewrite pval_S in H. rewrite pval_S. destruct (skip_ws s) as [|c q]; [discriminate|].
    destruct (c =? 34); [assumption|]. destruct (c =? 91).
    { destruct (skip_ws q) as [|d q1]; [discriminate|]. destruct (d =? 93); [assumption|]. inv_obind H. now rewrite (IH2 _ _ E). }
    destruct (c =? 123).
    { destruct (skip_ws q) as [|d q1]; [discriminate|]. destruct (d =? 125); [assumption|]. inv_obind H. now rewrite (IH3 _ _ E). }
    exact H.
  - rewrite pelems_S in H. rewrite pelems_S. inv_obind H. rewrite (IH1 _ _ E). cbn [obind]. destruct p as [v r].
    destruct (skip_ws r) as [|c q]; [discriminate|]. destruct (c =? 44); [|assumption]. inv_obind H. now rewrite (IH2 _ _ E0).
  - rewrite pmems_S in H. rewrite pmems_S. destruct (skip_ws s) as [|c q]; [discriminate|]. destruct (c =? 34); [|discriminate].
    inv_obind H. destruct p as [us q0]. cbn [obind]. destruct (skip_ws q0) as [|d q1]; [discriminate|]. destruct (d =? 58); [|discriminate].
    inv_obind H. rewrite (IH1 _ _ E0). cbn [obind]. destruct p as [v q2]. destruct (skip_ws q2) as [|e q3]; [discriminate|].
    destruct (e =? 44); [|assumption]. inv_obind H. now rewrite (IH3 _ _ E1).
Qed.
Lemma pval_more f g s x : (f <= g)%nat -> pval f s = Some x -> pval g s = Some x.
Proof. induction 1 as [|g _ IH]; [auto|]. intros H. apply (proj1 (p_mono g)). auto. Qed.
Lemma pelems_more f g s x : (f <= g)%nat -> pelems f s = Some x -> pelems g s = Some x.
Proof. induction 1 as [|g _ IH]; [auto|]. intros H. apply (proj1 (proj2 (p_mono g))). auto. Qed.
Lemma pmems_more f g s x : (f <= g)%nat -> pmems f s = Some x -> pmems g s = Some x.
Proof. induction 1 as [|g _ IH]; [auto|]. intros H. apply (proj2 (proj2 (p_mono g))). auto. Qed.

Scheme value_mind := Minimality for value_text Sort Prop
  with elements_mind := Minimality for elements_text Sort Prop
  with members_mind := Minimality for members_text Sort Prop.
Combined Scheme text_mind from value_mind, elements_mind, members_mind.

Lemma stop_cons c r : is_digit c = false -> c <> 46 -> c <> 101 -> c <> 69 -> num_stop (c :: r).
Proof. cbn. auto. Qed.
Lemma stop_blank w r : blank w -> num_stop r -> num_stop (w ++ r).
Proof.
  intros H Hr. destruct H as [|c w H _]; [assumption|]. cbn [app].
  apply stop_cons; destruct H as [->|[->|[->| ->]]]; (reflexivity || discriminate).
Qed.
Lemma value_head v t : value_text v t -> exists c q, t = c :: q /\ jws c = false /\ c <> 93 /\ c <> 125.
Proof.
  destruct 1 as [| | |n t H|k t H|w _|l t _|w _|l t _]; try (eexists _, _; split; [reflexivity|]; split; [reflexivity|]; split; discriminate).
  - apply num_head in H as (c & q & -> & H). exists c, q. split; [reflexivity|]. split; [|lia]. apply jws_false; lia.
  - destruct H; eexists _, _; (split; [reflexivity|split; [reflexivity|split; discriminate]]).
Qed.
Lemma elements_head l t : elements_text l t -> exists w c q, t = w ++ c :: q /\ blank w /\ jws c = false /\ c <> 93.
Proof.
  destruct 1 as [v w t w' Hw H _|v w t w' l ts Hw H _ _]; apply value_head in H as (c & q & -> & J & N1 & _).
  - exists w, c, (q ++ w'). auto.
  - exists w, c, ((q ++ w') ++ lit "," ++ ts). split; [now rewrite <- !app_assoc|auto].
Qed.
Lemma members_head l t : members_text l t -> exists w q, t = w ++ 34 :: q /\ blank w.
Proof.
  destruct 1 as [k v w kt w1 w2 t w' Hw H _ _ _ _|k v w kt w1 w2 t w' l ts Hw H _ _ _ _ _].
  - destruct H; eexists _, _; (split; [reflexivity|assumption]).
  - rewrite <- !app_assoc. destruct H; eexists _, _; (split; [reflexivity|assumption]).
Qed.
Ltac lits :=
  try change (lit "null") with [110; 117; 108; 108]; try change (lit "true") with [116; 114; 117; 101];
  try change (lit "false") with [102; 97; 108; 115; 101]; try change (lit "[") with [91]; try change (lit "]") with [93];
  try change (lit "{") with [123]; try change (lit "}") with [125]; try change (lit ",") with [44]; try change (lit ":") with [58]; cbn [app].
Lemma p_complete :
  (forall v t, value_text v t -> forall w r, blank w -> num_stop r -> exists f, pval f (w ++ t ++ r) = Some (v, r)) /\
  (forall l t, elements_text l t -> forall r, exists f, pelems f (t ++ 93 :: r) = Some (l, r)) /\
  (forall l t, members_text l t -> forall r, exists f, pmems f (t ++ 125 :: r) = Some (l, r)).
Proof.
  apply text_mind.
  - intros w r Hw _. exists 1%nat. rewrite pval_S. lits. rewrite skip_to by (assumption || reflexivity). reflexivity.
  - intros w r Hw _. exists 1%nat. rewrite pval_S. lits. rewrite skip_to by (assumption || reflexivity). reflexivity.
  - intros w r Hw _. exists 1%nat. rewrite pval_S. lits. rewrite skip_to by (assumption || reflexivity). reflexivity.
  - intros n t H w r Hw Hr. exists 1%nat. rewrite pval_S. pose proof (pnum_complete _ _ _ H Hr) as P. apply num_head in H as (c & q & -> & Hc).
    cbn [app] in *. rewrite skip_to by (try assumption; apply jws_false; lia).
    destruct (N.eqb_spec c 34); [lia|]. destruct (N.eqb_spec c 91); [lia|]. destruct (N.eqb_spec c 123); [lia|].
    destruct (N.eqb_spec c 110); [lia|]. destruct (N.eqb_spec c 116); [lia|]. destruct (N.eqb_spec c 102); [lia|].
    assert (D : (c =? 45) || is_digit c = true) by (apply Bool.orb_true_iff; destruct Hc as [->|Hc]; [left; reflexivity|right; now apply digit_spec]).
    rewrite D, P. reflexivity.
  - intros k t H w r Hw _. exists 1%nat. rewrite pval_S. apply (string_complete _ _ r) in H as (t' & us & -> & P & <-). cbn [app].
    rewrite skip_to by (assumption || reflexivity). change (34 =? 34) with true. cbv iota. now rewrite P.
  - intros w1 Hw1 w r Hw _. exists 1%nat. rewrite pval_S. rewrite <- app_assoc. lits. rewrite skip_to by (assumption || reflexivity).
    rewrite <- app_assoc. cbn [app]. rewrite skip_to by (assumption || reflexivity). reflexivity.
  - intros l t H IH w r Hw _. destruct (IH r) as [f P]. exists (S f). rewrite pval_S. rewrite <- app_assoc. lits.
    rewrite skip_to by (assumption || reflexivity). rewrite <- app_assoc. cbn [app]. change (91 =? 34) with false. change (91 =? 91) with true. cbv iota.
    rewrite P. apply elements_head in H as (w0 & c & q & -> & Hw0 & J & N1). rewrite <- app_assoc. cbn [app]. rewrite skip_to by assumption.
    destruct (N.eqb_spec c 93); [congruence|]. reflexivity.
  - intros w1 Hw1 w r Hw _. exists 1%nat. rewrite pval_S. rewrite <- app_assoc. lits. rewrite skip_to by (assumption || reflexivity).
    rewrite <- app_assoc. cbn [app]. rewrite skip_to by (assumption || reflexivity). reflexivity.
  - intros l t H IH w r Hw _. destruct (IH r) as [f P]. exists (S f). rewrite pval_S. rewrite <- app_assoc. lits.
    rewrite skip_to by (assumption || reflexivity). rewrite <- app_assoc. cbn [app]. change (123 =? 34) with false. change (123 =? 91) with false. change (123 =? 123) with true. cbv iota.
    rewrite P. apply members_head in H as (w0 & q & -> & Hw0). rewrite <- app_assoc. cbn [app]. rewrite skip_to by (assumption || reflexivity). reflexivity.
  - intros v w t w' Hw H IH Hw' r. destruct (IH w (w' ++ 93 :: r)) as [f P]; [assumption|apply stop_blank; [assumption|apply stop_cons; (reflexivity || discriminate)]|].
    exists (S f). rewrite pelems_S. rewrite <- !app_assoc, P. cbn [obind]. rewrite skip_to by (assumption || reflexivity). reflexivity.
  - intros v w t w' l ts Hw H IH Hw' Hl IHl r.
    destruct (IH w (w' ++ lit "," ++ ts ++ 93 :: r)) as [f P]; [assumption|apply stop_blank; [assumption|apply stop_cons; (reflexivity || discriminate)]|].
    destruct (IHl r) as [g Q]. exists (S (f + g)). rewrite pelems_S. rewrite <- !app_assoc. rewrite (pval_more f _ _ _ (Nat.le_add_r f g) P). cbn [obind]; lits.
    rewrite skip_to by (assumption || reflexivity). change (44 =? 44) with true. cbv iota.
    rewrite (pelems_more g (f + g) _ _ ltac:(lia) Q). reflexivity.
  - intros k v w kt w1 w2 t w' Hw HK Hw1 Hw2 H IH Hw' r.
    destruct (IH w2 (w' ++ 125 :: r)) as [f P]; [assumption|apply stop_blank; [assumption|apply stop_cons; (reflexivity || discriminate)]|].
    exists (S f). rewrite pmems_S. rewrite <- !app_assoc.
    apply (string_complete _ _ (w1 ++ lit ":" ++ w2 ++ t ++ w' ++ 125 :: r)) in HK as (t' & us & -> & S & <-). cbn [app].
    rewrite skip_to by (assumption || reflexivity). change (34 =? 34) with true. cbv iota. rewrite S. cbn [obind]; lits.
    rewrite skip_to by (assumption || reflexivity). change (58 =? 58) with true. cbv iota. rewrite P. cbn [obind].
    rewrite skip_to by (assumption || reflexivity). reflexivity.
  - intros k v w kt w1 w2 t w' l ts Hw HK Hw1 Hw2 H IH Hw' Hl IHl r.
    destruct (IH w2 (w' ++ lit "," ++ ts ++ 125 :: r)) as [f P]; [assumption|apply stop_blank; [assumption|apply stop_cons; (reflexivity || discriminate)]|].
    destruct (IHl r) as [g Q]. exists (S (f + g)). rewrite pmems_S. rewrite <- !app_assoc.
    apply (string_complete _ _ (w1 ++ lit ":" ++ w2 ++ t ++ w' ++ lit "," ++ ts ++ 125 :: r)) in HK as (t' & us & -> & S & <-). cbn [app].
    rewrite skip_to by (assumption || reflexivity). change (34 =? 34) with true. cbv iota. rewrite S. cbn [obind]; lits.
    rewrite skip_to by (assumption || reflexivity). change (58 =? 58) with true. cbv iota.
    change (lit ",") with [44] in P. cbn [app] in P.
    rewrite (pval_more f _ _ _ (Nat.le_add_r f g) P). cbn [obind]; lits.
    rewrite skip_to by (assumption || reflexivity). change (44 =? 44) with true. cbv iota.
    rewrite (pmems_more g (f + g) _ _ ltac:(lia) Q). reflexivity.
Qed.
Theorem parse_json_text s j : parse_json s = Some j <-> json_text j s.
Proof.
  unfold parse_json, json_text. split.
  - intros H. inv_obind H. destruct p as [v r]. destruct (skip_ws r) eqn:R; [|discriminate]. injection H as <-.
    apply (proj1 (p_sound _)) in E as (w & t & Hw & T & ->). exists w, t, r. apply skip_nil in R. auto.
  - intros (w & t & w' & Hw & T & Hw' & ->).
    destruct (proj1 p_complete _ _ T w w') as [f P]; [assumption|rewrite <- (app_nil_r w'); apply stop_blank; [assumption|exact I]|].
    set (s := w ++ t ++ w') in *.
    apply (pval_more f (f + (2 * length s + 2))) in P; [|lia]. rewrite pval_fuel in P by lia. rewrite P. cbn [obind].
    apply skip_nil in Hw'. now rewrite Hw'.
Qed.
