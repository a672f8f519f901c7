(** The number texts of block arguments: [Flt.parse_f64] and the grammar of SpecNumber.v. *)
From Verif Require Import Base Str Dec Flt FltProofs FltCanon FltQ Json JsonProofs SpecJson JsonGrammar SpecNumber NumberProofs NumberTextProofs.
From Coq Require Import ZifyNat ZifyN ZifyBool QArith Lqa Lia.
Local Open Scope Z_scope.

Lemma nearest_dec f neg D E x : wide f -> nearest f neg (inject_Z (Z.of_N D) * ten E)%Q x <-> x = round_dec f neg D E.
Proof.
  intros W. unfold round_dec. destruct (Z.leb_spec 0 E) as [H|H].
  - rewrite <- nearest_iff by (assumption || reflexivity). assert (Q : (inject_Z (Z.of_N D) * ten E == rat (D * 10 ^ Z.to_N E) 1)%Q) by (rewrite rat_1, qN_mul, ten_N by lia; reflexivity).
    now rewrite Q.
  - rewrite <- nearest_iff by (assumption || apply pow10_pos).
    assert (Q : (inject_Z (Z.of_N D) * ten E == rat D (10 ^ Z.to_N (- E)))%Q); [|now rewrite Q]. unfold rat, Qdiv. rewrite <- ten_N by lia.
    assert (O : (ten E * ten (- E) == 1)%Q) by (unfold ten; rewrite <- Qpower.Qpower_plus by discriminate; now replace (E + - E) with 0 by lia).
    pose proof (ten_pos (- E)) as T. assert (ten E == / ten (- E))%Q as ->; [|reflexivity]. apply (Qmult_inj_r _ _ (ten (- E))); [lra|]. rewrite O. field. lra.
Qed.

Local Open Scope N_scope.
(** the sign *)
Definition sign_of (s : str) : bool * str := match s with 45 :: r => (true, r) | 43 :: r => (false, r) | _ => (false, s) end.
Lemma sign_of_cases s : (exists r, s = 45 :: r /\ sign_of s = (true, r)) \/ (exists r, s = 43 :: r /\ sign_of s = (false, r)) \/
  (sign_of s = (false, s) /\ match s with c :: _ => c <> 45 /\ c <> 43 | [] => True end).
Proof.
  destruct s as [|c r]; [auto|]. destruct (N.eq_dec c 45) as [->|H1]; [left; eauto|]. destruct (N.eq_dec c 43) as [->|H2]; [right; left; eauto|].
  right. right. split; [|auto]. unfold sign_of. destruct c as [|p]; auto. repeat (destruct p; auto); congruence.
Qed.
Lemma sign_of_sound s neg b : sign_of s = (neg, b) -> exists sign, In (neg, sign) signs /\ s = sign ++ b.
Proof.
  destruct (sign_of_cases s) as [(r & -> & E)|[(r & -> & E)|(E & _)]]; rewrite E; intros [= <- <-]; unfold signs.
  - exists (lit "-"). cbn. auto.
  - exists (lit "+"). cbn. auto.
  - exists []. cbn. auto.
Qed.
Lemma sign_of_complete neg sign b : In (neg, sign) signs -> match b with c :: _ => c <> 45 /\ c <> 43 | [] => True end -> sign_of (sign ++ b) = (neg, b).
Proof.
  intros H C. cbn in H. destruct H as [[= <- <-]|[[= <- <-]|[[= <- <-]|[]]]]; try reflexivity. cbn [app].
  destruct (sign_of_cases b) as [(r & -> & E)|[(r & -> & E)|(E & _)]]; [destruct C; congruence|destruct C; congruence|exact E].
Qed.
(** words *)
Lemma lower_spelled w s : forallb (fun l => (97 <=? l) && (l <=? 122)) (lit w) = true -> map lower s = lit w <-> spelled w s.
Proof.
  unfold spelled. generalize (lit w) as l. intros l H. revert s. induction l as [|a l IH]; intros s.
  - destruct s; cbn; split; try discriminate; try constructor; inversion 1.
  - cbn [forallb] in H. apply andb_prop in H as [H1 H2]. apply andb_prop in H1 as [A1 A2]. apply N.leb_le in A1, A2.
    destruct s as [|c s]; [split; [discriminate|inversion 1]|]. cbn [map]. unfold lower at 1. split.
    + intros [= E1 E2]. apply IH in E2; [|assumption]. constructor; [|assumption].
      destruct (_ && _) eqn:C in E1; [right; lia|left; congruence].
    + inversion 1 as [|? ? ? ? E1 E2]; subst. apply IH in E2; [|assumption]. f_equal; [|assumption].
      destruct ((65 <=? c) && (c <=? 90)) eqn:C; lia.
Qed.
Lemma spelled_head w s : spelled w s -> forallb (fun l => (97 <=? l) && (l <=? 122)) (lit w) = true -> lit w <> [] -> exists c r, s = c :: r /\ 65 <= c <= 122.
Proof.
  unfold spelled. intros H A N0. destruct (lit w) as [|l ls]; [congruence|]. inversion H as [|? c ? r E _]; subst. cbn [forallb] in A. exists c, r. split; [reflexivity|]. lia.
Qed.
(** the number part *)
Lemma match46_eq {A} (r : str) (f : str -> A) (d : A) :
  (match r with 46 :: r' => f r' | _ => d end) = match r with c :: r' => if c =? 46 then f r' else d | [] => d end.
Proof.
  destruct r as [|c r]; [reflexivity|]. destruct (N.eqb_spec c 46) as [->|H]; [reflexivity|]. now apply match46.
Qed.
Lemma span_head s a b : span_digits s = (a, b) -> match b with c :: _ => is_digit c = false | [] => True end.
Proof.
  revert a b. induction s as [|c s IH]; cbn [span_digits]; intros a b H; [injection H as <- <-; exact I|].
  destruct (is_digit c) eqn:D; [|injection H as <- <-; exact D]. destruct (span_digits s) as [x y]. injection H as <- <-. now apply (IH x).
Qed.
Lemma Forall_digits d : Forall (fun c => 48 <= c <= 57) d <-> forallb is_digit d = true.
Proof. rewrite forallb_forall, Forall_forall. split; intros H x Hx; specialize (H x Hx); unfold is_digit in *; lia. Qed.
Definition tail_exp (r2 : str) : option Z :=
  match r2 with
  | [] => Some 0%Z
  | c :: r3 => if (c =? 101) || (c =? 69) then
      let '(eneg, r4) := sign_of r3 in let '(ed, r5) := span_digits r4 in
      match ed, r5 with _ :: _, [] => Some (if eneg then - Z.of_N (digits_N ed) else Z.of_N (digits_N ed))%Z | _, _ => None end
    else None
  end.
Lemma tail_exp_iff r2 z : tail_exp r2 = Some z <-> exists ex, exp_text ex r2 /\ z = exponent_value ex.
Proof.
  split.
  - destruct r2 as [|c r3]; cbn [tail_exp].
    + intros [= <-]. exists None. split; [constructor|reflexivity].
    + destruct ((c =? 101) || (c =? 69)) eqn:C; [|discriminate]. destruct (sign_of r3) as [eneg r4] eqn:S. apply sign_of_sound in S as (sign & SI & ->).
      destruct (span_digits r4) as [ed r5] eqn:D. apply span_sound in D as [-> F]. destruct ed as [|d0 ed]; [discriminate|]. destruct r5; [|discriminate].
      intros [= <-]. exists (Some (eneg, d0 :: ed)). split.
      * change (c :: sign ++ (d0 :: ed) ++ []) with ([c] ++ sign ++ (d0 :: ed) ++ []). rewrite app_nil_r. constructor; [|exact SI|split; [discriminate|exact F]].
        apply orb_prop in C as [C|C]; apply N.eqb_eq in C; subst c; cbn; auto.
      * cbn [exponent_value]. rewrite digits_decimal. destruct eneg; reflexivity.
  - intros (ex & T & ->). destruct T as [|e neg sign d E S [N0 F]]; [reflexivity|].
    assert (H : forall c, (c = 101 \/ c = 69) -> tail_exp (c :: sign ++ d) = Some (exponent_value (Some (neg, d)))).
    { intros c C. cbn [tail_exp]. assert ((c =? 101) || (c =? 69) = true) as -> by (destruct C as [-> | ->]; reflexivity).
      rewrite (sign_of_complete neg sign d S). 2:{ destruct d as [|c0 d]; [exact I|]. inversion F as [|? ? F1 _]. lia. }
      rewrite <- (app_nil_r d) at 1. rewrite span_digits_app; [|now apply Forall_digits|exact I]. destruct d as [|d0 d]; [congruence|].
      cbn [exponent_value]. rewrite digits_decimal. destruct neg; reflexivity. }
    cbn in E. destruct E as [<-|[<-|[]]]; apply H; auto.
Qed.
Lemma body_eq f neg s : parse_float_body f neg s =
  let '(ip, r1) := span_digits s in
  let '(fp, r2) := match r1 with c :: r => if c =? 46 then span_digits r else ([], r1) | [] => ([], r1) end in
  match ip ++ fp with
  | [] => None
  | ds => match tail_exp r2 with Some z => Some (round_dec f neg (digits_N ds) (- Z.of_nat (length fp) + z)) | None => None end
  end.
Proof.
  unfold parse_float_body. destruct (span_digits s) as [ip r1]. rewrite match46_eq.
  destruct (match r1 with c :: r => if c =? 46 then span_digits r else ([], r1) | [] => ([], r1) end) as [fp r2].
  destruct (ip ++ fp) as [|d0 ds]; [reflexivity|]. unfold tail_exp. destruct r2 as [|c r3]; [now rewrite Z.add_0_r|].
  destruct (_ || _); [|reflexivity]. fold (sign_of r3). destruct (sign_of r3) as [eneg r4]. destruct (span_digits r4) as [[|e0 ed] r5]; [reflexivity|].
  destruct r5; [|reflexivity]. destruct eneg; reflexivity.
Qed.
Lemma body_iff f neg s x : wide f -> parse_float_body f neg s = Some x <->
  exists i fr m ex et, s = m ++ et /\ mantissa i fr m /\ exp_text ex et /\
    nearest f neg (inject_Z (decimal (i ++ fr)) * ten (exponent_value ex - Z.of_nat (length fr)))%Q x.
Proof.
  intros W. rewrite body_eq. split.
  - destruct (span_digits s) as [ip r1] eqn:S1. pose proof (span_head _ _ _ S1) as H1. apply span_sound in S1 as [-> F1].
    destruct (match r1 with c :: r => if c =? 46 then span_digits r else ([], r1) | [] => ([], r1) end) as [fp r2] eqn:S2.
    assert (M : ip ++ fp <> [] -> exists m, ip ++ r1 = m ++ r2 /\ mantissa ip fp m).
    { intros N0. destruct r1 as [|c r]; [injection S2 as <- <-; exists ip; rewrite app_nil_r in N0; split; [reflexivity|constructor; now split]|].
      destruct (N.eqb_spec c 46) as [->|].
      - apply span_sound in S2 as [-> F2]. exists (ip ++ lit "." ++ fp). split; [now rewrite <- app_assoc|]. constructor. split; [assumption|]. apply Forall_app. auto.
      - injection S2 as <- <-. exists ip. rewrite app_nil_r in N0. split; [reflexivity|]. constructor. now split. }
    destruct (ip ++ fp) as [|d0 ds] eqn:E; [discriminate|]. destruct (tail_exp r2) as [z|] eqn:T; [|discriminate]. intros [= <-].
    apply tail_exp_iff in T as (ex & T & ->). destruct M as (m & -> & M); [discriminate|]. exists ip, fp, m, ex, r2. split; [reflexivity|]. split; [assumption|]. split; [assumption|].
    rewrite E, <- digits_decimal. apply nearest_dec; [assumption|]. f_equal. lia.
  - intros (i & fr & m & ex & et & -> & M & T & N0). rewrite <- digits_decimal in N0. apply nearest_dec in N0; [|assumption]. subst x.
    assert (H : match et with c :: _ => is_digit c = false /\ c <> 46 | [] => True end).
    { destruct T as [|e neg' sign d E S D]; [exact I|]. cbn in E. destruct E as [<-|[<-|[]]]; cbn; split; (reflexivity || discriminate). }
    assert (TE : tail_exp et = Some (exponent_value ex)) by (apply tail_exp_iff; eauto).
    destruct M as [d [D0 D]|i fr [D0 D]].
    + rewrite span_digits_app; [|now apply Forall_digits|destruct et; tauto].
      assert (X : (match et with c :: r => if c =? 46 then span_digits r else ([], et) | [] => ([], et) end) = ([], et)).
      { destruct et as [|c r]; [reflexivity|]. destruct (N.eqb_spec c 46); [tauto|reflexivity]. }
      rewrite X, app_nil_r, TE. destruct d as [|d0 d]; [congruence|]. do 2 f_equal. cbn [length]. lia.
    + apply Forall_app in D as [D1 D2]. rewrite <- app_assoc. rewrite span_digits_app; [|now apply Forall_digits|reflexivity].
      change ((lit "." ++ fr) ++ et) with (46 :: fr ++ et). cbv iota beta. change (46 =? 46) with true. cbv iota.
      rewrite span_digits_app; [|now apply Forall_digits|destruct et; tauto]. rewrite TE. destruct (i ++ fr) as [|d0 d]; [congruence|]. do 2 f_equal. lia.
Qed.
Theorem parse_f64_text s x : parse_f64 s = Some x <-> number_text s x.
Proof.
  unfold parse_f64, parse_float. fold (sign_of s). split.
  - destruct (sign_of s) as [neg b] eqn:S. apply sign_of_sound in S as (sign & SI & ->).
    destruct (str_eqb (map lower b) (lit "nan")) eqn:E1; [apply str_eqb_eq, lower_spelled in E1; [|reflexivity]; intros [= <-]; now apply (number_nan neg)|].
    destruct (str_eqb (map lower b) (lit "inf")) eqn:E2; [apply str_eqb_eq, lower_spelled in E2; [|reflexivity]; intros [= <-]; apply (number_infinite neg); auto|].
    destruct (str_eqb (map lower b) (lit "infinity")) eqn:E3; [apply str_eqb_eq, lower_spelled in E3; [|reflexivity]; intros [= <-]; apply (number_infinite neg); auto|].
    cbn [orb]. intros H. apply body_iff in H; [|exact wide_F64]. destruct H as (i & fr & m & ex & et & -> & M & T & N0). now apply (number_decimal neg sign i fr m ex et).
  - intros T.
    assert (Wd : forall w b, spelled w b -> forallb (fun l => (97 <=? l) && (l <=? 122)) (lit w) = true -> lit w <> [] -> map lower b = lit w /\ match b with c :: _ => c <> 45 /\ c <> 43 | [] => True end).
    { intros w b S A N0. split; [now apply lower_spelled|]. destruct (spelled_head w b S A N0) as (c & r & -> & H). lia. }
    destruct T as [neg sign w SI S|neg sign w SI S|neg sign i fr m ex et x SI M T N0].
    + destruct (Wd _ _ S eq_refl ltac:(discriminate)) as [L H]. rewrite (sign_of_complete neg sign w SI H), L. reflexivity.
    + destruct S as [S|S]; destruct (Wd _ _ S eq_refl ltac:(discriminate)) as [L H]; rewrite (sign_of_complete neg sign w SI H), L; reflexivity.
    + assert (Hd : exists c r, m ++ et = c :: r /\ (48 <= c <= 57 \/ c = 46)).
      { destruct M as [d [D0 D]|[|c i] fr [D0 D]].
        - destruct d as [|c d]; [congruence|]. inversion D; subst. exists c, (d ++ et). auto.
        - exists 46, (fr ++ et). auto.
        - inversion D; subst. exists c, ((i ++ lit "." ++ fr) ++ et). auto. }
      destruct Hd as (c & r & E & C). rewrite (sign_of_complete neg sign (m ++ et) SI); [|rewrite E; lia].
      assert (NW : forall w, forallb (fun l => (97 <=? l) && (l <=? 122)) (lit w) = true -> lit w <> [] -> str_eqb (map lower (m ++ et)) (lit w) = false).
      { intros w A N1. apply not_true_iff_false. intros X. apply str_eqb_eq, lower_spelled in X; [|assumption]. destruct (spelled_head w _ X A N1) as (c' & r' & E' & H'). rewrite E in E'. injection E' as -> ->. lia. }
      rewrite !NW by (reflexivity || discriminate). cbn [orb]. apply body_iff; [exact wide_F64|]. exists i, fr, m, ex, et. auto.
Qed.

(** ** Written numbers are read back *)
Lemma round_dec_strip f neg D E : wide f -> (D mod 10 = 0)%N -> round_dec f neg (D / 10) (E + 1) = round_dec f neg D E.
Proof.
  intros W H. apply nearest_dec; [assumption|]. pose proof (N.div_mod D 10 ltac:(lia)) as DM. rewrite H, N.add_0_r in DM.
  assert (Q : (inject_Z (Z.of_N D) * ten E == inject_Z (Z.of_N (D / 10)) * ten (E + 1))%Q).
  { rewrite DM at 1. rewrite N2Z.inj_mul, inject_Z_mult. unfold ten. rewrite Qpower.Qpower_plus by discriminate. change (inject_Z (Z.of_N 10)) with 10%Q. change (inject_Z 10 ^ 1)%Q with 10%Q. ring. }
  rewrite Q. now apply nearest_dec.
Qed.
Theorem parse_display f x : wide f -> canonical f x = true -> parse_float f (display_float f x) = Some x.
Proof.
  intros W Hc. destruct x as [|s|s|s m e].
  - reflexivity.
  - destruct s; reflexivity.
  - cbn [display_float]. rewrite parse_float_signed by reflexivity.
    rewrite parse_body_int by (reflexivity || discriminate). cbn. reflexivity.
  - cbn [display_float]. match goal with |- context [shortest true ?o f m e] => set (ok := o) end.
    destruct (shortest true ok f m e) as [D E] eqn:S.
    assert (R : round_dec f false D E = FFin false m e).
    { unfold shortest in S. destruct (ratio_of m e) as [P Q].
      destruct (shortest_search _ _ _ _ _ _ _) as [[D' E']|] eqn:Sr.
      - injection S as <- <-. apply search_ok in Sr. unfold ok in Sr.
        rewrite parse_body_display in Sr. now apply flt_eqb_eq.
      - pose proof (exact_dec_round f false m e (proj1 W)) as X. rewrite S in X. cbn [fst snd] in X. apply X.
        exact Hc. }
    assert (K : forall D E, round_dec f false D E = FFin false m e -> parse_float f ((if s then [CH_MINUS] else []) ++ display_dec D E) = Some (FFin s m e)).
    { clear. intros D E R. destruct (display_dec_head D E) as (c & r & Hd & Hcd). rewrite Hd.
      rewrite parse_float_signed by auto. rewrite <- Hd, parse_body_display, round_dec_sign, R. reflexivity. }
    destruct (N.eqb_spec (D mod 10) 0) as [T|T]; apply K; [now rewrite round_dec_strip|assumption].
Qed.
Theorem parse_display_f64 x : canonical F64 x = true -> parse_f64 (display_f64 x) = Some x.
Proof. apply parse_display. exact wide_F64. Qed.
