(** Property C91: the texts of a project are UTF-8, and lengths, positions, white space and separators are those of Unicode. *)
From Verif Require Import Base Str Spec Utf8 Utf8Proofs Crypto CryptoProofs SpecAes AesSpecProofs P_Cipher M_Raw RawProofs SpecText M_Color.
From Coq Require Import ZifyNat ZifyN ZifyBool.
Ltac Zify.zify_post_hook ::= Z.to_euclidean_division_equations.

Lemma encoded_iff c bs : encoded c bs <-> scalar c = true /\ utf8_char c = bs.
Proof.
  unfold encoded, scalar. split.
  - intros (S & lo & hi & lead & n & b & rest & I & R & -> & L & B & F & ->). cbn [In FORMS] in I. unfold utf8_char.
    destruct I as [I|[I|[I|[I|[]]]]]; injection I as <- <- <- <-; destruct rest as [|x [|y [|z [|]]]]; try discriminate L; clear L;
      repeat match goal with H : Forall _ (_ :: _) |- _ => inversion H; clear H; subst end; cbn [joined fold_left] in *; unfold joined in *; cbn [fold_left] in *;
      (split; [lia|]); repeat match goal with |- context [N.ltb ?a ?b] => destruct (N.ltb_spec a b); try lia end; repeat (f_equal; try lia).
  - intros [S <-]. split; [lia|]. unfold utf8_char. destruct (N.ltb_spec c 0x80); [|destruct (N.ltb_spec c 0x800); [|destruct (N.ltb_spec c 0x10000)]].
    + exists 0, 0x7F, 0, 0%nat, c, []. cbn [In FORMS]. repeat split; auto; try lia. unfold joined. cbn [fold_left]. lia.
    + exists 0x80, 0x7FF, 0xC0, 1%nat. eexists _, _. split; [cbn; auto|]. split; [lia|]. split; [reflexivity|]. split; [reflexivity|]. split; [lia|]. split; [repeat constructor; lia|].
      unfold joined. cbn [fold_left]. lia.
    + exists 0x800, 0xFFFF, 0xE0, 2%nat. eexists _, _. split; [cbn; auto|]. split; [lia|]. split; [reflexivity|]. split; [reflexivity|]. split; [lia|]. split; [repeat constructor; lia|].
      unfold joined. cbn [fold_left]. lia.
    + exists 0x10000, 0x10FFFF, 0xF0, 3%nat. eexists _, _. split; [cbn; auto|]. split; [lia|]. split; [reflexivity|]. split; [reflexivity|]. split; [lia|]. split; [repeat constructor; lia|].
      unfold joined. cbn [fold_left]. lia.
Qed.
Lemma text_bytes_iff s bs : text_bytes s bs <-> wf_str s = true /\ utf8_encode s = bs.
Proof.
  unfold text_bytes, utf8_encode, wf_str. split.
  - intros (parts & F & ->). induction F as [|c b s parts E F [W IH]]; [now split|]. apply encoded_iff in E as [S <-]. cbn [forallb map concat]. now rewrite S, W, IH.
  - intros [W <-]. exists (map utf8_char s). split; [|reflexivity]. induction s as [|c s IH]; [constructor|]. cbn [forallb] in W. apply andb_true_iff in W as [C W].
    cbn [map]. constructor; [now apply encoded_iff|now apply IH].
Qed.
(** C91: what is read as text is the UTF-8 encoding of the text, and nothing else is read *)
Theorem C91_utf8 bs s : utf8_decode bs = Some s <-> text_bytes s bs.
Proof.
  rewrite text_bytes_iff. split; [apply utf8_decode_sound|]. intros [W <-]. now apply utf8_decode_encode.
Qed.
Print Assumptions C91_utf8.
Theorem C91_encode s : string_ok s -> text_bytes s (utf8_encode s).
Proof. intros H. apply text_bytes_iff. split; [now apply string_ok_wf|reflexivity]. Qed.
Print Assumptions C91_encode.
Theorem C91_read project file library resource view logic rf rp :
  Forall bytes [project; file; library; resource; view; logic] ->
  (from_encrypted project file library resource view logic rf = Ok rp <->
   Forall2 (fun data text => exists plain, sw_decrypts data plain /\ text_bytes text plain) [project; file; library; resource; view; logic]
     [rp_project rp; rp_file rp; rp_library rp; rp_resource rp; rp_view rp; rp_logic rp] /\ rp_resource_files rp = Some rf).
Proof.
  intros B. unfold from_encrypted. rewrite from_encrypted_with_ok.
  assert (D : forall d t, bytes d -> (decrypt_text d = Ok t <-> exists plain, sw_decrypts d plain /\ text_bytes t plain)).
  { intros d t Bd. rewrite decrypt_text_ok. split.
    - intros [S E]. exists (utf8_encode t). split; [now apply C90_decrypt|now apply C91_encode].
    - intros (plain & P & T). apply text_bytes_iff in T as [W <-]. split; [now apply string_ok_wf|now apply C90_decrypt]. }
  repeat match goal with H : Forall _ (_ :: _) |- _ => inversion H; clear H; subst end. rewrite !D by assumption. split.
  - intros (E1 & E2 & E3 & E4 & E5 & E6 & E7). split; [|exact E7]. repeat apply Forall2_cons; auto.
  - intros [F R]. repeat match goal with H : Forall2 _ (_ :: _) _ |- _ => inversion H; clear H; subst end. auto 10.
Qed.
Print Assumptions C91_read.
(** lengths and positions count bytes; a position inside a character is none *)
Lemma u8len_utf8 c : length (utf8_char c) = u8len c.
Proof. unfold utf8_char, u8len. repeat match goal with |- context [N.ltb ?a ?b] => destruct (N.ltb_spec a b) end; reflexivity. Qed.
Theorem C91_length s bs : text_bytes s bs -> blen s = length bs.
Proof.
  rewrite text_bytes_iff. intros [_ <-]. unfold utf8_encode. induction s as [|c s IH]; [reflexivity|]. cbn [blen map concat]. now rewrite app_length, u8len_utf8, IH.
Qed.
Print Assumptions C91_length.
Theorem C91_slice a b s t : bslice a b s = Some t <-> exists p r, s = p ++ t ++ r /\ blen p = a /\ (blen p + blen t = b)%nat.
Proof.
  unfold bslice. split.
  - destruct (Nat.leb_spec a b) as [L|]; [|discriminate]. destruct (bdrop a s) as [q|] eqn:D; [|discriminate]. cbn [obind]. intros T.
    apply bdrop_spec in D as (p & -> & <-). apply btake_spec in T as (r & -> & E). exists p, r. split; [reflexivity|]. split; [reflexivity|]. lia.
  - intros (p & r & -> & <- & <-). destruct (Nat.leb_spec (blen p) (blen p + blen t)); [|lia]. rewrite bdrop_app. cbn [obind]. replace (blen p + blen t - blen p)%nat with (blen t) by lia. apply btake_app.
Qed.
Print Assumptions C91_slice.
(** white space and trimming *)
Theorem C91_white c : is_ws c = true <-> white c.
Proof.
  unfold is_ws, white, WHITE. cbn [In]. split; [|intros H; repeat destruct H as [<-|H]; [reflexivity..|contradiction]].
  intros H. destruct (N.leb_spec c 13) as [A|A].
  { assert (X : c = 9 \/ c = 10 \/ c = 11 \/ c = 12 \/ c = 13) by lia. intuition. }
  destruct (N.leb_spec 0x2000 c) as [B|B]; [destruct (N.leb_spec c 0x200A) as [C|C]|].
  - assert (X : c = 0x2000 \/ c = 0x2001 \/ c = 0x2002 \/ c = 0x2003 \/ c = 0x2004 \/ c = 0x2005 \/ c = 0x2006 \/ c = 0x2007 \/ c = 0x2008 \/ c = 0x2009 \/ c = 0x200A) by lia.
    repeat destruct X as [->|X]; subst; auto 30.
  - assert (X : c = 0x2028 \/ c = 0x2029 \/ c = 0x202F \/ c = 0x205F \/ c = 0x3000) by lia. repeat destruct X as [->|X]; subst; auto 30.
  - assert (X : c = 0x20 \/ c = 0x85 \/ c = 0xA0 \/ c = 0x1680) by lia. repeat destruct X as [->|X]; subst; auto 30.
Qed.
Print Assumptions C91_white.
Lemma trim_start_splits s : exists a, s = a ++ trim_start s /\ Forall white a /\ forall c r, trim_start s = c :: r -> ~ white c.
Proof.
  induction s as [|c s (a & E & F & H)]; [exists []; repeat split; auto; discriminate|]. cbn [trim_start]. destruct (is_ws c) eqn:W.
  - exists (c :: a). cbn [app]. rewrite <- E. split; [reflexivity|]. split; [|exact H]. constructor; [now apply C91_white|exact F].
  - exists []. split; [reflexivity|]. split; [constructor|]. intros d r [= <- <-] X. apply C91_white in X. congruence.
Qed.
Lemma white_forallb a : Forall white a -> forallb is_ws a = true.
Proof. intros F. apply forallb_forall. rewrite Forall_forall in F. intros c I. now apply C91_white, F. Qed.
Theorem C91_trim s t : trim s = t <-> trimmed s t.
Proof.
  split.
  - intros <-. unfold trim, trim_end. destruct (trim_start_splits s) as (a & E & F & H). destruct (trim_start_splits (rev (trim_start s))) as (b & E' & F' & H').
    set (u := trim_start s) in *. set (v := trim_start (rev u)) in *. exists a, (rev b).
    assert (U : u = rev v ++ rev b) by (rewrite <- rev_app_distr, <- E', rev_involutive; reflexivity).
    split; [rewrite E, U; reflexivity|]. split; [exact F|]. split; [now apply Forall_rev|]. split.
    + intros c r X. rewrite X in U. apply (H c (r ++ rev b)). rewrite U. reflexivity.
    + intros c r X. apply (H' c (rev r)). apply (f_equal (@rev _)) in X. rewrite rev_involutive, rev_app_distr in X. exact X.
  - intros (a & b & -> & A & B & T1 & T2). rewrite trim_ws_app_l by now apply white_forallb. rewrite trim_ws_app_r by now apply white_forallb.
    unfold trim. assert (TS : trim_start t = t). { destruct t as [|c t]; [reflexivity|]. cbn [trim_start]. destruct (is_ws c) eqn:W; [|reflexivity]. apply C91_white in W. exfalso. now apply (T1 c t). }
    rewrite TS. unfold trim_end. destruct (rev t) as [|c r] eqn:R; [apply (f_equal (@rev _)) in R; rewrite rev_involutive in R; now rewrite R|].
    cbn [trim_start]. destruct (is_ws c) eqn:W; [|rewrite <- R; apply rev_involutive]. apply C91_white in W. exfalso. apply (T2 c (rev r)); [|exact W]. apply (f_equal (@rev _)) in R. now rewrite rev_involutive in R.
Qed.
Print Assumptions C91_trim.
(** separators: every one separates; the first occurrence of a text *)
Theorem C91_split c s ps : split_on c s = ps <-> ps <> [] /\ Forall (fun p => ~ In c p) ps /\ s = join c ps.
Proof.
  split; [intros <-; split; [apply split_on_nonnil|]; split; [apply split_on_In|symmetry; apply join_split]|].
  intros (A & B & ->). now apply split_join.
Qed.
Print Assumptions C91_split.
Lemma split_once_first p s a b : split_once p s = Some (a, b) -> forall a' b', s = a' ++ p ++ b' -> (length a <= length a')%nat.
Proof.
  revert a b. induction s as [|c s IH]; intros a b; cbn [split_once].
  - destruct (strip_prefix p []) eqn:P; [intros [= <- _]; cbn; lia|discriminate].
  - destruct (strip_prefix p (c :: s)) eqn:P; [intros [= <- _]; cbn; lia|]. destruct (split_once p s) as [[x y]|] eqn:S; [|discriminate]. intros [= <- <-] a' b' E.
    destruct a' as [|d a']; [cbn [app] in E; symmetry in E; apply eq_sym, strip_prefix_spec in E; congruence|]. injection E as _ E. cbn [length]. specialize (IH _ _ eq_refl a' b' E). lia.
Qed.
Theorem C91_split_once p s : (forall a b, split_once p s = Some (a, b) <-> first_occurrence p s a b) /\ (split_once p s = None <-> forall a b, s <> a ++ p ++ b).
Proof.
  assert (N : split_once p s = None -> forall a b, s <> a ++ p ++ b).
  { induction s as [|c s IH]; cbn [split_once].
    - destruct (strip_prefix p []) eqn:P; [discriminate|]. intros _ a b E. symmetry in E. apply app_eq_nil in E as [-> E]. symmetry in E. apply strip_prefix_spec in E. congruence.
    - destruct (strip_prefix p (c :: s)) eqn:P; [discriminate|]. destruct (split_once p s) as [[x y]|]; [discriminate|]. intros _ [|d a] b E; [cbn [app] in E; apply strip_prefix_spec in E; congruence|].
      injection E as _ E. now apply (IH eq_refl a b). }
  assert (F : forall a b, split_once p s = Some (a, b) -> first_occurrence p s a b) by (intros a b E; split; [now apply split_once_spec|now apply (split_once_first p s a b)]).
  split.
  - intros a b. split; [apply F|]. intros [E M]. destruct (split_once p s) as [[x y]|] eqn:S; [|exfalso; now apply (N eq_refl a b)].
    destruct (F x y eq_refl) as [E' M']. specialize (M x y E'). specialize (M' a b E). assert (L : length x = length a) by lia. rewrite E in E'. symmetry in E'.
    assert (x = a /\ p ++ y = p ++ b) as [-> Q].
    { clear -L E'. revert a L E'. induction x as [|c x IH]; intros [|d a] L E'; try discriminate L; [now split|]. injection E' as <- E'. injection L as L. destruct (IH a L E') as [-> ->]. now split. }
    apply app_inv_head in Q as ->. reflexivity.
  - split; [exact N|]. intros H. destruct (split_once p s) as [[x y]|] eqn:S; [|reflexivity]. exfalso. destruct (F x y eq_refl) as [E _]. now apply (H x y).
Qed.
Print Assumptions C91_split_once.
(** a 64 bit number taken as signed *)
Theorem C91_signed v : v < 2 ^ 64 -> (- 2 ^ 63 <= i64_of_u64 v < 2 ^ 63)%Z /\ (i64_of_u64 v mod 2 ^ 64 = Z.of_N v)%Z.
Proof.
  intros H. change (2 ^ 64) with 18446744073709551616 in H. change (2 ^ 63)%Z with 9223372036854775808%Z. change (2 ^ 64)%Z with 18446744073709551616%Z. unfold i64_of_u64.
  destruct (N.ltb_spec v 9223372036854775808); lia.
Qed.
Print Assumptions C91_signed.

(** a text with characters of one to four bytes, an overlong form, a surrogate, a position inside a character *)
Example C91_example :
  text_bytes [0x41; 0xE9; 0x20AC; 0x1F600] [0x41; 0xC3; 0xA9; 0xE2; 0x82; 0xAC; 0xF0; 0x9F; 0x98; 0x80] /\
  (forall s, ~ text_bytes s [0xC0; 0x80]) /\ (forall s, ~ text_bytes s [0xED; 0xA0; 0x80]) /\
  blen [0x41; 0xE9; 0x20AC] = 6%nat /\ bslice 1 3 [0x41; 0xE9; 0x20AC] = Some [0xE9] /\ bslice 1 2 [0x41; 0xE9; 0x20AC] = None /\
  trimmed ([0x3000; 32] ++ lit "a b" ++ [10]) (lit "a b") /\
  first_occurrence (lit "::") (lit "a::b::c") (lit "a") (lit "b::c") /\ i64_of_u64 18446744073709551615 = (-1)%Z.
Proof.
  split; [now apply C91_utf8|]. split; [intros s X; apply C91_utf8 in X; discriminate X|]. split; [intros s X; apply C91_utf8 in X; discriminate X|].
  do 3 (split; [reflexivity|]). split; [now apply C91_trim|]. split; [now apply C91_split_once|]. reflexivity.
Qed.
