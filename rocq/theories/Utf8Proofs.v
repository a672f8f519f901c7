(** UTF-8 decoding inverts encoding and accepts nothing else. *)
From Verif Require Import Base Str Utf8.
From Coq Require Import ZifyNat ZifyN ZifyBool.
Ltac Zify.zify_post_hook ::= Z.to_euclidean_division_equations.

Lemma utf8_decode_char c r : scalar c = true ->
  utf8_decode (utf8_char c ++ r) = option_map (cons c) (utf8_decode r).
Proof.
  intros H. unfold scalar in H. unfold utf8_char.
  destruct (N.ltb_spec c 0x80).
  { cbn [app utf8_decode]. destruct (N.ltb_spec c 0x80); [auto|lia]. }
  destruct (N.ltb_spec c 0x800).
  { cbn [app utf8_decode].
    destruct (N.ltb_spec (0xC0 + c / 64) 0x80); [lia|].
    destruct (N.ltb_spec (0xC0 + c / 64) 0xC2); [lia|].
    destruct (N.ltb_spec (0xC0 + c / 64) 0xE0); [|lia].
    replace (cont (0x80 + c mod 64)) with true by (unfold cont; lia).
    do 2 f_equal. lia. }
  destruct (N.ltb_spec c 0x10000).
  { cbn [app utf8_decode].
    destruct (N.ltb_spec (0xE0 + c / 4096) 0x80); [lia|].
    destruct (N.ltb_spec (0xE0 + c / 4096) 0xC2); [lia|].
    destruct (N.ltb_spec (0xE0 + c / 4096) 0xE0); [lia|].
    destruct (N.ltb_spec (0xE0 + c / 4096) 0xF0); [|lia].
    replace ((0xE0 + c / 4096 - 0xE0) * 4096 + (0x80 + (c / 64) mod 64 - 0x80) * 64 + (0x80 + c mod 64 - 0x80)) with c by lia.
    cbv zeta.
    replace (cont (0x80 + (c / 64) mod 64)) with true by (unfold cont; lia).
    replace (cont (0x80 + c mod 64)) with true by (unfold cont; lia).
    replace (0x800 <=? c) with true by lia.
    replace (scalar c) with true by (unfold scalar; lia). reflexivity. }
  assert (c < 0x110000) by lia.
  cbn [app utf8_decode].
  destruct (N.ltb_spec (0xF0 + c / 262144) 0x80); [lia|].
  destruct (N.ltb_spec (0xF0 + c / 262144) 0xC2); [lia|].
  destruct (N.ltb_spec (0xF0 + c / 262144) 0xE0); [lia|].
  destruct (N.ltb_spec (0xF0 + c / 262144) 0xF0); [lia|].
  destruct (N.ltb_spec (0xF0 + c / 262144) 0xF5); [|lia].
  replace ((0xF0 + c / 262144 - 0xF0) * 262144 + (0x80 + (c / 4096) mod 64 - 0x80) * 4096
     + (0x80 + (c / 64) mod 64 - 0x80) * 64 + (0x80 + c mod 64 - 0x80)) with c by lia.
  cbv zeta.
  replace (cont (0x80 + (c / 4096) mod 64)) with true by (unfold cont; lia).
  replace (cont (0x80 + (c / 64) mod 64)) with true by (unfold cont; lia).
  replace (cont (0x80 + c mod 64)) with true by (unfold cont; lia).
  replace (0x10000 <=? c) with true by lia.
  replace (scalar c) with true by (unfold scalar; lia). reflexivity.
Qed.
Theorem utf8_decode_encode s : wf_str s = true -> utf8_decode (utf8_encode s) = Some s.
Proof.
  induction s as [|c s IH]; auto. cbn [wf_str forallb]. intros H. apply andb_prop in H as [H1 H2].
  unfold utf8_encode. cbn [map concat]. rewrite utf8_decode_char by auto.
  fold (utf8_encode s). now rewrite IH.
Qed.
Theorem utf8_decode_sound l s : utf8_decode l = Some s -> wf_str s = true /\ utf8_encode s = l.
Proof.
  remember (length l) as n. assert (Hn : (length l <= n)%nat) by lia. clear Heqn.
  revert l s Hn; induction n; intros l s Hn H.
  { destruct l; [|simpl in Hn; lia]. injection H as <-. auto. }
  destruct l as [|b0 r0]; [injection H as <-; auto|]. cbn [utf8_decode] in H.
  destruct (N.ltb_spec b0 0x80).
  { destruct (utf8_decode r0) as [l|] eqn:E; [|discriminate]. injection H as <-.
    apply IHn in E as [E1 E2]; [|simpl in Hn; lia]. split.
    - cbn [wf_str forallb]. unfold wf_str in E1. rewrite E1. unfold scalar. lia.
    - unfold utf8_encode. cbn [map concat]. fold (utf8_encode l). rewrite E2. unfold utf8_char.
      destruct (N.ltb_spec b0 0x80); [auto|lia]. }
  destruct (N.ltb_spec b0 0xC2); [discriminate|].
  destruct (N.ltb_spec b0 0xE0).
  { destruct r0 as [|b1 r1]; [discriminate|].
    destruct (cont b1) eqn:C1; [|discriminate]. unfold cont in C1.
    destruct (utf8_decode r1) as [l|] eqn:E; [|discriminate]. injection H as <-.
    apply IHn in E as [E1 E2]; [|simpl in Hn; lia]. split.
    - cbn [wf_str forallb]. unfold wf_str in E1. rewrite E1. unfold scalar. lia.
    - unfold utf8_encode. cbn [map concat]. fold (utf8_encode l). rewrite E2. unfold utf8_char.
      set (c := (b0 - 0xC0) * 64 + (b1 - 0x80)).
      destruct (N.ltb_spec c 0x80); [lia|]. destruct (N.ltb_spec c 0x800); [|lia].
      cbn [app]. f_equal; [lia|f_equal; lia]. }
  destruct (N.ltb_spec b0 0xF0).
  { destruct r0 as [|b1 [|b2 r2]]; [discriminate..|]. cbv zeta in H.
    set (c := (b0 - 0xE0) * 4096 + (b1 - 0x80) * 64 + (b2 - 0x80)) in *.
    destruct (cont b1 && cont b2 && (0x800 <=? c) && scalar c) eqn:C1; [|discriminate].
    apply andb_prop in C1 as [C1 C4]. unfold cont in C1.
    destruct (utf8_decode r2) as [l|] eqn:E; [|discriminate]. injection H as <-.
    apply IHn in E as [E1 E2]; [|simpl in Hn; lia]. split.
    - cbn [wf_str forallb]. unfold wf_str in E1. now rewrite E1, C4.
    - unfold utf8_encode. cbn [map concat]. fold (utf8_encode l). rewrite E2. unfold utf8_char.
      destruct (N.ltb_spec c 0x80); [lia|]. destruct (N.ltb_spec c 0x800); [lia|].
      destruct (N.ltb_spec c 0x10000); [|lia].
      cbn [app]. f_equal; [lia|f_equal; [lia|f_equal; lia]]. }
  destruct (N.ltb_spec b0 0xF5); [|discriminate].
  destruct r0 as [|b1 [|b2 [|b3 r3]]]; [discriminate..|]. cbv zeta in H.
  set (c := (b0 - 0xF0) * 262144 + (b1 - 0x80) * 4096 + (b2 - 0x80) * 64 + (b3 - 0x80)) in *.
  destruct (cont b1 && cont b2 && cont b3 && (0x10000 <=? c) && scalar c) eqn:C1; [|discriminate].
  apply andb_prop in C1 as [C1 C4]. unfold cont in C1.
  destruct (utf8_decode r3) as [l|] eqn:E; [|discriminate]. injection H as <-.
  apply IHn in E as [E1 E2]; [|simpl in Hn; lia]. split.
  - cbn [wf_str forallb]. unfold wf_str in E1. now rewrite E1, C4.
  - unfold utf8_encode. cbn [map concat]. fold (utf8_encode l). rewrite E2. unfold utf8_char.
    destruct (N.ltb_spec c 0x80); [lia|]. destruct (N.ltb_spec c 0x800); [lia|].
    destruct (N.ltb_spec c 0x10000); [lia|].
    cbn [app]. f_equal; [lia|f_equal; [lia|f_equal; [lia|f_equal; lia]]].
Qed.
