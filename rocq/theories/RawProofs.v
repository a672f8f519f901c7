(** Proofs about [M_Raw.v]: loading encrypted projects. *)
From Verif Require Import Base Str Spec Aes Crypto CryptoProofs Utf8 Utf8Proofs M_Raw.

Lemma string_ok_wf s : string_ok s <-> wf_str s = true.
Proof.
  unfold string_ok, wf_str. rewrite forallb_forall, Forall_forall.
  split; intros H x Hx; specialize (H x Hx); unfold scalar in *.
  - destruct H as [H|[H H']]; [apply orb_true_iff; left; now apply N.ltb_lt|].
    apply orb_true_iff; right. apply andb_true_intro. split; [now apply N.leb_le|now apply N.ltb_lt].
  - apply orb_prop in H as [H|H]; [left; now apply N.ltb_lt|right].
    apply andb_prop in H as [H1 H2]. split; [now apply N.leb_le|now apply N.ltb_lt].
Qed.
Lemma decrypt_text_ok d s : decrypt_text d = Ok s <->
  string_ok s /\ decrypt_sw_encrypted d = Ok (utf8_encode s).
Proof.
  unfold decrypt_text. destruct (decrypt_sw_encrypted d) as [p|e|] eqn:E; cbn [bind].
  - destruct (utf8_decode p) as [t|] eqn:U.
    + destruct (utf8_decode_sound _ _ U) as [W <-]. split.
      * intros [= ->]. split; [now apply string_ok_wf|auto].
      * intros [S [= H]]. apply string_ok_wf in S. apply (f_equal utf8_decode) in H.
        rewrite !utf8_decode_encode in H by auto. congruence.
    + split; [discriminate|]. intros [S [= ->]]. apply string_ok_wf in S.
      rewrite utf8_decode_encode in U by auto. discriminate.
  - split; [discriminate|intros [_ [=]]].
  - split; [discriminate|intros [_ [=]]].
Qed.
Lemma decrypt_text_nopanic d : decrypt_text d <> Panic.
Proof.
  unfold decrypt_text. pose proof (decrypt_nopanic d). destruct (decrypt_sw_encrypted d); cbn [bind]; try congruence.
  destruct (utf8_decode a); discriminate.
Qed.
Lemma utf8_encode_bytes s : wf_str s = true -> bytes_ok (utf8_encode s) = true.
Proof.
  intros H. apply bytes_bytes_ok. apply Forall_forall. intros x Hx.
  unfold utf8_encode in Hx. apply in_concat in Hx as [b [Hb Hx]]. apply in_map_iff in Hb as [c [<- Hc]].
  unfold wf_str in H. rewrite forallb_forall in H. specialize (H c Hc). unfold scalar in H.
  assert (c < 0x110000) by (apply orb_prop in H as [H|H]; [apply N.ltb_lt in H; lia|apply andb_prop in H as [_ H]; apply N.ltb_lt in H; lia]).
  unfold utf8_char in Hx.
  assert (M : forall a, a mod 64 < 64) by (intros; apply N.mod_lt; lia).
  destruct (N.ltb_spec c 0x80); [destruct Hx as [<-|[]]; lia|].
  destruct (N.ltb_spec c 0x800).
  { assert (c / 64 < 32) by (apply N.div_lt_upper_bound; lia).
    destruct Hx as [<-|[<-|[]]]; [lia|]. specialize (M c); lia. }
  destruct (N.ltb_spec c 0x10000).
  { assert (c / 4096 < 16) by (apply N.div_lt_upper_bound; lia).
    destruct Hx as [<-|[<-|[<-|[]]]]; [lia| |]. specialize (M (c / 64)); lia. specialize (M c); lia. }
  assert (c / 262144 < 5) by (apply N.div_lt_upper_bound; lia).
  destruct Hx as [<-|[<-|[<-|[<-|[]]]]]; [lia| | |].
  specialize (M (c / 4096)); lia. specialize (M (c / 64)); lia. specialize (M c); lia.
Qed.
Lemma decrypt_text_encrypt s : string_ok s -> decrypt_text (encrypt_sw (utf8_encode s)) = Ok s.
Proof.
  intros H. apply decrypt_text_ok. split; auto. apply decrypt_encrypt. apply utf8_encode_bytes.
  now apply string_ok_wf.
Qed.
Lemma from_encrypted_with_ok rf p f l r v g rp :
  from_encrypted_with rf p f l r v g = Ok rp <->
  decrypt_text p = Ok (rp_project rp) /\ decrypt_text f = Ok (rp_file rp) /\ decrypt_text l = Ok (rp_library rp) /\
  decrypt_text r = Ok (rp_resource rp) /\ decrypt_text v = Ok (rp_view rp) /\ decrypt_text g = Ok (rp_logic rp) /\
  rp_resource_files rp = rf.
Proof.
  unfold from_encrypted_with. split.
  - destruct (decrypt_text p); cbn [bind]; try discriminate. destruct (decrypt_text f); cbn [bind]; try discriminate.
    destruct (decrypt_text l); cbn [bind]; try discriminate. destruct (decrypt_text r); cbn [bind]; try discriminate.
    destruct (decrypt_text v); cbn [bind]; try discriminate. destruct (decrypt_text g); cbn [bind]; try discriminate.
    intros [= <-]. cbn. tauto.
  - intros (-> & -> & -> & -> & -> & -> & E). cbn [bind]. destruct rp; cbn in *. now subst.
Qed.
Lemma from_encrypted_with_nopanic rf p f l r v g : from_encrypted_with rf p f l r v g <> Panic.
Proof.
  unfold from_encrypted_with.
  repeat match goal with
  | |- context [decrypt_text ?x] =>
    pose proof (decrypt_text_nopanic x); destruct (decrypt_text x); cbn [bind]; try congruence
  end.
Qed.
