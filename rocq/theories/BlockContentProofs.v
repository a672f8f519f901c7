(** Proofs about block types, categories and block contents of [A_Block.v]. *)
From Verif Require Import Base Spec Str Dec Flt M_Color ColorProofs A_Block LogicMapProofs.
From Coq Require Import ZifyNat ZifyN ZifyBool.

(** ** Colours *)
Lemma mask_byte v k : as_u8 (N.land (N.shiftr v k) 511) = v / 2 ^ k mod 256.
Proof.
  unfold as_u8. change 511 with (N.ones 9). change 0xff with (N.ones 8).
  rewrite <- N.land_assoc. replace (N.land (N.ones 9) (N.ones 8)) with (N.ones 8) by reflexivity.
  now rewrite N.land_ones, N.shiftr_div_pow2.
Qed.
Lemma rgb_value c : rgb c = (cval c / 2 ^ 16 mod 256, cval c / 2 ^ 8 mod 256, cval c mod 256).
Proof.
  unfold rgb, red, green, blue. rewrite !mask_byte. change (2 ^ 0) with 1. now rewrite N.div_1_r.
Qed.
Lemma rgb_eqb_value c r g b : r < 256 -> g < 256 -> b < 256 ->
  rgb_eqb (rgb c) (r, g, b) = true <-> cval c mod 2 ^ 24 = r * 2 ^ 16 + g * 2 ^ 8 + b.
Proof.
  intros Hr Hg Hb. rewrite rgb_value. unfold rgb_eqb. set (v := cval c).
  rewrite !andb_true_iff, !N.eqb_eq.
  assert (E : v mod 2 ^ 24 = (v / 2 ^ 16 mod 256) * 2 ^ 16 + (v / 2 ^ 8 mod 256) * 2 ^ 8 + v mod 256).
  { change (2 ^ 24) with 16777216. change (2 ^ 16) with 65536. change (2 ^ 8) with 256.
    Ltac Zify.zify_post_hook ::= Z.to_euclidean_division_equations. lia. }
  rewrite E. assert (v / 2 ^ 16 mod 256 < 256 /\ v / 2 ^ 8 mod 256 < 256 /\ v mod 256 < 256) by (repeat split; apply N.mod_lt; discriminate).
  change (2 ^ 16) with 65536 in *. change (2 ^ 8) with 256 in *.
  set (x := v / 65536 mod 256) in *. set (y := v / 256 mod 256) in *. set (z := v mod 256) in *. clearbody x y z.
  Ltac Zify.zify_post_hook ::= idtac. lia.
Qed.

(** ** Spec parameters *)
Lemma u8len1 c : c < 128 -> u8len c = 1%nat.
Proof. apply u8len_ascii. Qed.
Definition name_of (rest : str) : option str :=
  match rest with c :: n => if c =? CH_DOT then match n with [] => None | _ => Some n end else None | [] => None end.
Lemma blen_pos c s : (1 <= blen (c :: s))%nat.
Proof. cbn [blen]. pose proof (u8len_pos c). lia. Qed.
Lemma bdrop_ascii3 a b c s : (a < 128) -> (b < 128) -> (c < 128) -> bdrop 3 (a :: b :: c :: s) = Some s.
Proof.
  intros A B C. cbn [bdrop]. rewrite !u8len1 by auto. cbn [Nat.leb Nat.sub].
  rewrite ?u8len1 by auto. cbn [Nat.leb Nat.sub bdrop]. destruct s; reflexivity.
Qed.
Lemma spec_name_ascii c rest : c < 128 -> spec_name (CH_PERCENT :: c :: rest) = Ok (name_of rest).
Proof.
  intros Hc. unfold spec_name. cbn [nth_error]. destruct rest as [|d n]; [reflexivity|].
  cbn [name_of nth_error]. destruct (N.eqb_spec d CH_DOT) as [->|]; cbn [andb]; [|reflexivity].
  cbn [blen]. rewrite !u8len1 by (auto; reflexivity). destruct n as [|x n].
  - reflexivity.
  - replace (3 <? 1 + (1 + (1 + blen (x :: n))))%nat with true by (pose proof (blen_pos x n); symmetry; apply Nat.ltb_lt; lia).
    now rewrite bdrop_ascii3.
Qed.
Lemma starts_percent s : starts_with [CH_PERCENT] s = match s with c :: _ => c =? CH_PERCENT | [] => false end.
Proof. unfold starts_with. cbn [strip_prefix]. destruct s as [|c s]; auto. rewrite N.eqb_sym. now destruct (c =? CH_PERCENT). Qed.
Lemma starts_at s : starts_with [AT] s = match s with c :: _ => c =? AT | [] => false end.
Proof. unfold starts_with. cbn [strip_prefix]. destruct s as [|c s]; auto. rewrite N.eqb_sym. now destruct (c =? AT). Qed.

(** tokens on which the parsers panic *)
Definition bad_token (t : str) : Prop :=
  t = [CH_PERCENT] \/
  (exists r, t = CH_PERCENT :: 109 :: r /\ name_of r = None) \/
  (exists c r, t = CH_PERCENT :: c :: CH_DOT :: r /\ 0x800 <= c).
Lemma spec_name_cases s : spec_name s = Panic \/ exists n, spec_name s = Ok n.
Proof. unfold spec_name. destruct (match nth_error s 2 with Some c => _ | None => _ end); [|eauto]. destruct (bdrop 3 s); cbn; eauto. Qed.
Lemma spec_name_panic c r : spec_name (CH_PERCENT :: c :: r) = Panic <-> exists n, r = CH_DOT :: n /\ 0x800 <= c.
Proof.
  unfold spec_name. cbn [nth_error]. destruct r as [|d n]; [cbn; split; [discriminate|intros (? & ? & _); discriminate]|].
  cbn [nth_error]. destruct (N.eqb_spec d CH_DOT) as [->|Hd]; cbn [andb].
  2: { split; [discriminate|intros (? & ? & _); congruence]. }
  destruct (N.leb_spec 0x800 c) as [Hc|Hc].
  - assert (U : (3 <= u8len c)%nat).
    { unfold u8len. replace (c <? 0x80) with false by lia. replace (c <? 0x800) with false by lia. destruct (c <? 0x10000); lia. }
    cbn [blen]. replace (3 <? _)%nat with true by (symmetry; apply Nat.ltb_lt; change (u8len CH_PERCENT) with 1%nat; change (u8len CH_DOT) with 1%nat; lia).
    cbn [bdrop]. change (u8len CH_PERCENT) with 1%nat. cbn [Nat.leb Nat.sub bdrop].
    replace (u8len c <=? 2)%nat with false by (symmetry; apply Nat.leb_gt; lia). cbn. split; eauto.
  - split; [|intros (? & ? & ?); lia]. intros H. exfalso. revert H.
    destruct (3 <? _)%nat; [|discriminate]. cbn [bdrop]. change (u8len CH_PERCENT) with 1%nat. cbn [Nat.leb Nat.sub bdrop].
    assert (U : u8len c = 1%nat \/ u8len c = 2%nat) by (unfold u8len; destruct (c <? 0x80); auto; replace (c <? 0x800) with true by lia; auto).
    destruct U as [-> | ->]; cbn [Nat.leb Nat.sub bdrop]; change (u8len CH_DOT) with 1%nat; cbn [Nat.leb Nat.sub bdrop]; destruct n; discriminate.
Qed.
Lemma spec_name_letter c r : c < 128 -> exists n, spec_name (CH_PERCENT :: c :: r) = Ok n /\ n = name_of r.
Proof. intros H. rewrite spec_name_ascii by auto. eauto. Qed.

Section C.
  Context {B : Type}.
  (** ** Parsing without parameters *)
  Inductive param_wo : str -> argument B -> Prop :=
  | pw_string r : param_wo (CH_PERCENT :: 115 :: r) (ArgString (name_of r) AEmpty)
  | pw_boolean r : param_wo (CH_PERCENT :: 98 :: r) (ArgBoolean (name_of r) AEmpty)
  | pw_number r : param_wo (CH_PERCENT :: 100 :: r) (ArgNumber (name_of r) AEmpty)
  | pw_menu r n : name_of r = Some n -> param_wo (CH_PERCENT :: 109 :: r) (ArgMenu n AEmpty).
  Lemma token_wo_ok s a : starts_with [CH_PERCENT] s = true -> @token_wo_params B s = Ok a <-> param_wo s a.
  Proof.
    rewrite starts_percent. destruct s as [|p s]; [discriminate|]. intros Hp. apply N.eqb_eq in Hp. subst p. split.
    - unfold token_wo_params. destruct s as [|c r].
      { unfold spec_name. cbn [nth_error unwrap bind]. discriminate. }
      intros H. destruct (spec_name (CH_PERCENT :: c :: r)) as [n| |] eqn:En; cbn [bind] in H; try discriminate.
      cbn [nth_error unwrap bind] in H.
      destruct (N.eqb_spec c 115) as [->|]; [rewrite spec_name_ascii in En by lia; injection En as <-; injection H as <-; constructor|].
      destruct (N.eqb_spec c 98) as [->|]; [rewrite spec_name_ascii in En by lia; injection En as <-; injection H as <-; constructor|].
      destruct (N.eqb_spec c 100) as [->|]; [rewrite spec_name_ascii in En by lia; injection En as <-; injection H as <-; constructor|].
      destruct (N.eqb_spec c 109) as [->|]; [|discriminate]. rewrite spec_name_ascii in En by lia; injection En as <-.
      destruct (name_of r) eqn:E; [|discriminate]. injection H as <-. now constructor.
    - intros H. inversion H; subst; unfold token_wo_params; rewrite spec_name_ascii by lia; cbn [bind nth_error unwrap N.eqb Pos.eqb]; try reflexivity.
      match goal with E : name_of _ = Some _ |- _ => rewrite E end. reflexivity.
  Qed.
  Lemma token_wo_panic s : starts_with [CH_PERCENT] s = true -> @token_wo_params B s = Panic -> bad_token s.
  Proof.
    rewrite starts_percent. destruct s as [|p s]; [discriminate|]. intros Hp. apply N.eqb_eq in Hp. subst p.
    unfold token_wo_params. destruct s as [|c r]; [now left|]. intros H.
    destruct (spec_name (CH_PERCENT :: c :: r)) as [n| |] eqn:En; cbn [bind] in H; try discriminate.
    2: { apply spec_name_panic in En as (n & -> & Hc). right; right; eauto. }
    cbn [nth_error unwrap bind] in H.
    destruct (N.eqb_spec c 115); [discriminate|]. destruct (N.eqb_spec c 98); [discriminate|]. destruct (N.eqb_spec c 100); [discriminate|].
    destruct (N.eqb_spec c 109) as [->|]; [|discriminate]. rewrite spec_name_ascii in En by lia. injection En as <-.
    destruct (name_of r) eqn:E; [discriminate|]. right; left; eauto.
  Qed.

  (** ** Printing *)
  Lemma content_to_string_join (is : list (spec_item B)) : content_to_string is = join CH_SPACE (map item_spec is).
  Proof.
    unfold content_to_string. induction is as [|i is IH]; [reflexivity|]. cbn [flat_map map]. destruct is as [|j is].
    - cbn [flat_map map join]. rewrite app_nil_r. now rewrite removelast_last.
    - cbn [map]. rewrite join_cons2. change (item_spec j :: map item_spec is) with (map item_spec (j :: is)). rewrite <- IH.
      rewrite removelast_app by (cbn [flat_map]; destruct (item_spec j); discriminate). now rewrite <- app_assoc.
  Qed.
  Definition printed_name (n : option str) : str := match n with Some x => CH_DOT :: x | None => [] end.
  Lemma name_of_printed n : n <> Some [] -> name_of (printed_name n) = n.
  Proof. destruct n as [[|c n]|]; cbn; congruence. Qed.
  Lemma name_of_some r n : name_of r = Some n -> n <> [] /\ r = CH_DOT :: n.
  Proof.
    destruct r as [|c r]; [discriminate|]. cbn [name_of]. destruct (N.eqb_spec c CH_DOT) as [->|]; [|discriminate].
    destruct r; [discriminate|]. intros [= <-]. split; [discriminate|reflexivity].
  Qed.
End C.
Arguments param_wo {B} _ _.

(** ** Exactness of the content parsers *)
From Verif Require Import SpecNumber NumberStdProofs SpecBlock.
Lemma words_split spec ts : words spec ts <-> ts = split_on CH_SPACE spec.
Proof.
  split.
  - intros (N & F & ->). symmetry. now apply split_join.
  - intros ->. split; [apply split_on_nonnil|]. split; [apply split_on_In|]. symmetry. apply join_split.
Qed.
Lemma not_param t : starts_with [CH_PERCENT] t = false <-> ~ is_param t.
Proof.
  rewrite starts_percent. unfold is_param. destruct t as [|c t]; [split; auto; intros _ (? & ?); discriminate|].
  destruct (N.eqb_spec c CH_PERCENT) as [->|H].
  - split; [discriminate|]. intros K. exfalso. apply K. now exists t.
  - split; auto. intros _ (r & [= -> _]). now apply H.
Qed.
Lemma name_of_iff r n : name_of r = n <-> match n with Some x => x <> [] /\ r = 46 :: x | None => forall x, x <> [] -> r <> 46 :: x end.
Proof.
  destruct n as [x|].
  - split; [apply name_of_some|]. intros (H & ->). destruct x; cbn; congruence.
  - split.
    + intros H x Hx ->. destruct x; cbn in H; congruence.
    + intros H. destruct r as [|c r]; auto. cbn [name_of]. destruct (N.eqb_spec c CH_DOT) as [->|]; auto.
      destruct r as [|d r]; auto. exfalso. apply (H (d :: r)); [discriminate|reflexivity].
Qed.
Lemma param_word_iff t l c n : lit l = [c] -> param_word t l n <-> exists r, t = CH_PERCENT :: c :: r /\ name_of r = n.
Proof.
  intros L. unfold param_word. rewrite L. split; intros (r & -> & H); exists r; (split; [reflexivity|]); now apply name_of_iff.
Qed.
Section C2.
  Context {B : Type}.
  Lemma value_or_block_iff {T} (f : str -> res content_error T) (g : str -> T -> Prop) a (v : arg_value B T) :
    (forall x t, f x = Ok t <-> g x t) -> value_or_block f a = Ok v <-> reads_as g a v.
  Proof.
    intros H. unfold value_or_block. rewrite starts_at. destruct a as [|c r].
    { destruct v as [t|b|id|]; cbn [reads_as].
      - rewrite <- H. split.
        + intros E. split; [discriminate|]. destruct (f []); try discriminate. cbn in E. congruence.
        + intros (_ & ->). reflexivity.
      - split; [|tauto]. destruct (f []); discriminate.
      - split; [destruct (f []); discriminate|]. intros (r & ? & _). discriminate.
      - split; [|tauto]. destruct (f []); discriminate. }
    destruct (N.eqb_spec c AT) as [->|Hc].
    - cbn [bdrop]. change (u8len AT <=? 1)%nat with true. cbv iota. change (1 - u8len AT)%nat with 0%nat.
      assert (E0 : bdrop 0 r = Some r) by (destruct r; reflexivity). rewrite E0. cbn [unwrap bind].
      destruct v as [t|b|id|]; cbn [reads_as].
      + split; [destruct (parse_u32 r); discriminate|]. intros (K & _). exfalso. now apply (K r).
      + split; [destruct (parse_u32 r); discriminate|tauto].
      + split.
        * destruct (parse_u32 r) as [m|] eqn:P; [|discriminate]. intros [= <-]. now exists r.
        * intros (r' & [= <-] & ->). reflexivity.
      + split; [destruct (parse_u32 r); discriminate|tauto].
    - destruct v as [t|b|id|]; cbn [reads_as].
      + rewrite <- H. split.
        * intros E. split; [intros r0 [= -> _]; now apply Hc|]. destruct (f (c :: r)); try discriminate. cbn in E. congruence.
        * intros (_ & ->). reflexivity.
      + split; [|tauto]. destruct (f (c :: r)); discriminate.
      + split; [destruct (f (c :: r)); discriminate|]. intros (r' & [= -> _] & _). now contradiction Hc.
      + split; [|tauto]. destruct (f (c :: r)); discriminate.
  Qed.
  Lemma number_arg_iff x t : number_arg x = Ok t <-> number_text x t.
  Proof. rewrite <- parse_f64_text. unfold number_arg. destruct (parse_f64 x); cbn; split; congruence. Qed.
  Lemma boolean_arg_iff x t : boolean_arg x = Ok t <-> boolean_text x t.
  Proof.
    unfold boolean_arg, parse_bool, boolean_text. destruct (str_eqb x (lit "true")) eqn:E1; [apply str_eqb_eq in E1; subst x|].
    { destruct t; cbn; split; congruence. }
    destruct (str_eqb x (lit "false")) eqn:E2; [apply str_eqb_eq in E2; subst x; destruct t; cbn; split; congruence|].
    cbn. split; [discriminate|]. intros ->. destruct t; [rewrite str_eqb_refl in E1|rewrite str_eqb_refl in E2]; discriminate.
  Qed.
  Lemma id_arg_iff (x t : str) : @Ok content_error _ x = Ok t <-> x = t.
  Proof. split; congruence. Qed.

  Inductive token_gives : str -> list str -> argument B -> list str -> Prop :=
  | tg_string r a v args : value_or_block Ok a = Ok v -> token_gives (CH_PERCENT :: 115 :: r) (a :: args) (ArgString (name_of r) v) args
  | tg_boolean r a v args : value_or_block boolean_arg a = Ok v -> token_gives (CH_PERCENT :: 98 :: r) (a :: args) (ArgBoolean (name_of r) v) args
  | tg_number r a v args : value_or_block number_arg a = Ok v -> token_gives (CH_PERCENT :: 100 :: r) (a :: args) (ArgNumber (name_of r) v) args
  | tg_menu r n a args : name_of r = Some n -> token_gives (CH_PERCENT :: 109 :: r) (a :: args) (ArgMenu n (AValue a)) args.
  Lemma token_parse_ok s args x rest : starts_with [CH_PERCENT] s = true ->
    @token_parse B s args = Ok (x, rest) <-> token_gives s args x rest.
  Proof.
    rewrite starts_percent. destruct s as [|p s]; [discriminate|]. intros Hp. apply N.eqb_eq in Hp. subst p. split.
    - unfold token_parse. destruct s as [|c r].
      { unfold spec_name. cbn [nth_error unwrap bind]. discriminate. }
      intros H. destruct (spec_name (CH_PERCENT :: c :: r)) as [n| |] eqn:En; cbn [bind] in H; try discriminate.
      cbn [nth_error unwrap bind] in H.
      destruct (N.eqb_spec c 115) as [->|].
      { rewrite spec_name_ascii in En by lia; injection En as <-. destruct args as [|a args]; [discriminate|]. cbn [take_arg bind] in H.
        destruct (value_or_block Ok a) eqn:V; try discriminate. injection H as <- <-. now constructor. }
      destruct (N.eqb_spec c 98) as [->|].
      { rewrite spec_name_ascii in En by lia; injection En as <-. destruct args as [|a args]; [discriminate|]. cbn [take_arg bind] in H.
        destruct (value_or_block boolean_arg a) eqn:V; try discriminate. injection H as <- <-. now constructor. }
      destruct (N.eqb_spec c 100) as [->|].
      { rewrite spec_name_ascii in En by lia; injection En as <-. destruct args as [|a args]; [discriminate|]. cbn [take_arg bind] in H.
        destruct (value_or_block number_arg a) eqn:V; try discriminate. injection H as <- <-. now constructor. }
      destruct (N.eqb_spec c 109) as [->|]; [|discriminate]. rewrite spec_name_ascii in En by lia; injection En as <-.
      destruct (name_of r) eqn:E; [|discriminate]. destruct args as [|a args]; [discriminate|]. cbn [unwrap take_arg bind] in H. injection H as <- <-. now constructor.
    - intros H. inversion H; subst; unfold token_parse; rewrite spec_name_ascii by lia; cbn [bind nth_error unwrap N.eqb Pos.eqb take_arg];
        repeat match goal with E : _ = _ |- _ => rewrite E; clear E end; reflexivity.
  Qed.
  Lemma items_parse_iff ts args is : @items_parse B ts args = Ok is <-> gives ts args is.
  Proof.
    revert args is. induction ts as [|t ts IH]; intros args is; cbn [items_parse].
    { split; [intros [= <-]; constructor|]. intros H. now inversion H. }
    destruct (starts_with [CH_PERCENT] t) eqn:P.
    - split.
      + intros H. destruct (token_parse t args) as [[x rest]| |] eqn:T; cbn [bind] in H; try discriminate.
        destruct (items_parse ts rest) as [is'| |] eqn:I; cbn [bind] in H; try discriminate. injection H as <-.
        apply IH in I. apply (proj1 (token_parse_ok _ _ _ _ P)) in T. inversion T; subst.
        * constructor; auto. { apply (param_word_iff _ _ 115); [reflexivity|eauto]. } { eapply value_or_block_iff; [apply id_arg_iff|]. assumption. }
        * constructor; auto. { apply (param_word_iff _ _ 98); [reflexivity|eauto]. } { eapply value_or_block_iff; [apply boolean_arg_iff|]. assumption. }
        * constructor; auto. { apply (param_word_iff _ _ 100); [reflexivity|eauto]. } { eapply value_or_block_iff; [apply number_arg_iff|]. assumption. }
        * constructor; auto. { apply (param_word_iff _ _ 109); [reflexivity|eauto]. }
      + intros H. inversion H; subst.
        1: { exfalso. apply (proj2 (not_param t)) in H2. congruence. }
        * match goal with W : param_word _ _ _ |- _ => apply (proj1 (param_word_iff t "s" 115 n eq_refl)) in W as (r & -> & Nr) end.
          assert (T : @token_parse B (CH_PERCENT :: 115 :: r) (a :: args0) = Ok (ArgString n (v), args0)).
          { apply token_parse_ok; [exact P|]. subst n. constructor. eapply value_or_block_iff; [apply id_arg_iff|]. assumption. }
          rewrite T. cbn [bind]. match goal with G : gives ts _ _ |- _ => apply IH in G; now rewrite G end.
        * match goal with W : param_word _ _ _ |- _ => apply (proj1 (param_word_iff t "b" 98 n eq_refl)) in W as (r & -> & Nr) end.
          assert (T : @token_parse B (CH_PERCENT :: 98 :: r) (a :: args0) = Ok (ArgBoolean n (v), args0)).
          { apply token_parse_ok; [exact P|]. subst n. constructor. eapply value_or_block_iff; [apply boolean_arg_iff|]. assumption. }
          rewrite T. cbn [bind]. match goal with G : gives ts _ _ |- _ => apply IH in G; now rewrite G end.
        * match goal with W : param_word _ _ _ |- _ => apply (proj1 (param_word_iff t "d" 100 n eq_refl)) in W as (r & -> & Nr) end.
          assert (T : @token_parse B (CH_PERCENT :: 100 :: r) (a :: args0) = Ok (ArgNumber n (v), args0)).
          { apply token_parse_ok; [exact P|]. subst n. constructor. eapply value_or_block_iff; [apply number_arg_iff|]. assumption. }
          rewrite T. cbn [bind]. match goal with G : gives ts _ _ |- _ => apply IH in G; now rewrite G end.
        * match goal with W : param_word _ _ _ |- _ => apply (proj1 (param_word_iff t "m" 109 (Some n) eq_refl)) in W as (r & -> & Nr) end.
          assert (T : @token_parse B (CH_PERCENT :: 109 :: r) (a :: args0) = Ok (ArgMenu n (AValue a), args0)).
          { apply token_parse_ok; [exact P|]. now constructor. }
          rewrite T. cbn [bind]. match goal with G : gives ts _ _ |- _ => apply IH in G; now rewrite G end.
    - split.
      + intros H. destruct (items_parse ts args) as [is'| |] eqn:I; cbn [bind] in H; try discriminate. injection H as <-.
        constructor; [now apply not_param|now apply IH].
      + intros H. inversion H; subst; try (match goal with W : param_word _ _ _ |- _ => destruct W as (r & -> & _) end; rewrite starts_percent in P; discriminate).
        match goal with G : gives ts _ _ |- _ => apply IH in G; now rewrite G end.
  Qed.
End C2.

Section C3.
  Context {B : Type}.
  Definition tok_wo (t : str) (i : spec_item B) : Prop :=
    match i with SText s => s = t /\ ~ is_param t | SParam a => param_wo t a end.
  Lemma param_wo_is t (a : argument B) : param_wo t a -> is_param t.
  Proof. intros H. inversion H; subst; eexists; reflexivity. Qed.
  Lemma items_wo_iff ts is : @items_wo_params B ts = Ok is <-> Forall2 tok_wo ts is.
  Proof.
    revert is. induction ts as [|t ts IH]; intros is; cbn [items_wo_params].
    { split; [intros [= <-]; constructor|]. intros H. now inversion H. }
    destruct (starts_with [CH_PERCENT] t) eqn:P.
    - split.
      + intros H. destruct (token_wo_params t) as [a| |] eqn:T; cbn [bind] in H; try discriminate.
        destruct (items_wo_params ts) as [is'| |]; cbn [bind] in H; try discriminate. injection H as <-.
        constructor; [now apply (proj1 (token_wo_ok _ _ P))|]. now apply IH.
      + intros H. inversion H as [|? i ? is' Hi His]; subst. destruct i as [s|a]; cbn [tok_wo] in Hi.
        * destruct Hi as [_ Hi]. apply (proj2 (not_param t)) in Hi. congruence.
        * apply (proj2 (token_wo_ok _ _ P)) in Hi. rewrite Hi. cbn [bind]. apply IH in His. now rewrite His.
    - split.
      + intros H. cbn [bind] in H. destruct (items_wo_params ts) as [is'| |]; cbn [bind] in H; try discriminate. injection H as <-.
        constructor; [split; [reflexivity|now apply not_param]|now apply IH].
      + intros H. inversion H as [|? i ? is' Hi His]; subst. destruct i as [s|a]; cbn [tok_wo] in Hi.
        * destruct Hi as [-> _]. cbn [bind]. apply IH in His. now rewrite His.
        * apply param_wo_is in Hi. apply (proj1 (not_param t)) in P. tauto.
  Qed.
  Lemma Forall2_map_eq {X Y Z} (f : X -> Z) (g : Y -> Z) (P : X -> Y -> Prop) l m :
    Forall2 P l m -> (forall x y, P x y -> f x = g y) -> map f l = map g m.
  Proof. intros H K. induction H; cbn; [reflexivity|]. now rewrite (K _ _ H), IHForall2. Qed.

  Lemma printed_iff t (a : argument B) : param_wo t a -> arg_spec a = t <-> written_param t.
  Proof.
    assert (G : forall c r, In c (lit "sbd") -> CH_PERCENT :: c :: printed_name (name_of r) = CH_PERCENT :: c :: r <-> written_param (CH_PERCENT :: c :: r)).
    { intros c r Hc. split.
      - intros [= E]. destruct (name_of r) as [n|] eqn:En.
        + apply name_of_some in En as [Hn ->]. apply wp_named; auto. cbn in Hc |- *. tauto.
        + cbn in E. subst r. now apply wp_bare.
      - intros W. inversion W; subst; [reflexivity|]. destruct n; [congruence|reflexivity]. }
    intros H. inversion H; subst; cbn [arg_spec].
    - apply (G 115). now left.
    - apply (G 98). right; now left.
    - apply (G 100). right; right; now left.
    - apply name_of_some in H0 as [Hn ->]. split; [|reflexivity]. intros _. apply wp_named; auto. cbn. tauto.
  Qed.
  Lemma arg_spec_nospace t (a : argument B) : param_wo t a -> ~ In 32 t -> ~ In 32 (arg_spec a).
  Proof.
    assert (G : forall c r, ~ In 32 (CH_PERCENT :: c :: r) -> ~ In 32 (CH_PERCENT :: c :: printed_name (name_of r))).
    { intros c r H K. apply H. cbn [In] in *. destruct K as [K|[K|K]]; auto. right; right.
      destruct (name_of r) as [n|] eqn:E; [|destruct K]. apply name_of_some in E as [_ ->]. exact K. }
    intros H. inversion H; subst; cbn [arg_spec].
    - apply (G 115).
    - apply (G 98).
    - apply (G 100).
    - apply name_of_some in H0 as [Hn ->]. auto.
  Qed.
  Lemma print_parsed spec ts is : words spec ts -> @parse_wo_params B spec = Ok is ->
    content_to_string is = spec <-> Forall (fun t => is_param t -> written_param t) ts.
  Proof.
    intros W H. pose proof W as W'. apply (proj1 (words_split _ _)) in W'. destruct W as (N & F & ->).
    unfold parse_wo_params in H. rewrite <- W' in H. apply (proj1 (items_wo_iff _ _)) in H. rewrite content_to_string_join.
    assert (Nis : map item_spec is <> []) by (intros E; apply map_eq_nil in E; subst; inversion H; subst; congruence).
    assert (Fis : Forall (fun l => ~ In CH_SPACE l) (map item_spec is)).
    { clear W' N Nis. induction H as [|t i ts is Hi His IH]; cbn [map]; [constructor|]. inversion F; subst. constructor; auto.
      destruct i as [s|a]; cbn [tok_wo item_spec] in *; [now destruct Hi as [-> _]|]. now apply (arg_spec_nospace t). }
    assert (J : join CH_SPACE (map item_spec is) = join 32 ts <-> map item_spec is = ts).
    { split; [|now intros ->]. intros E. rewrite <- (split_join CH_SPACE (map item_spec is)), <- (split_join 32 ts) by auto. now rewrite E. }
    rewrite J. clear J Fis Nis N F W'. induction H as [|t i ts is Hi His IH]; cbn [map]; [split; auto|]. split.
    - intros [= E1 E2]. constructor; [|now apply IH]. intros Pt. destruct i as [s|a]; cbn [tok_wo item_spec] in *; [tauto|].
      now apply (printed_iff t a Hi).
    - intros Fa. inversion Fa; subst. f_equal; [|now apply IH]. destruct i as [s|a]; cbn [tok_wo item_spec] in *; [tauto|].
      apply (printed_iff t a Hi). apply H1. eapply param_wo_is; eauto.
  Qed.
  Lemma written_wo t : written_param t -> exists a : argument B, param_wo t a.
  Proof.
    assert (N : forall n, n <> [] -> name_of (46 :: n) = Some n) by (intros [|c n] H; [congruence|reflexivity]).
    intros [c H|c n H Hn].
    - cbn in H. destruct H as [<-|[<-|[<-|[]]]]; eexists; constructor.
    - cbn in H. destruct H as [<-|[<-|[<-|[<-|[]]]]]; eexists; constructor. now apply N.
  Qed.
  Lemma written_parses ts : Forall (fun t => is_param t -> written_param t) ts -> exists is, @items_wo_params B ts = Ok is.
  Proof.
    intros F. assert (exists is, Forall2 tok_wo ts is) as [is H]; [|exists is; now apply items_wo_iff].
    induction F as [|t ts H F (is & IH)]; [exists []; constructor|].
    destruct (starts_with [CH_PERCENT] t) eqn:P.
    - assert (Pt : is_param t). { rewrite starts_percent in P. destruct t as [|c r]; [discriminate|]. apply N.eqb_eq in P. subst. now exists r. }
      destruct (written_wo t (H Pt)) as [a Ha]. exists (SParam a :: is). now constructor.
    - exists (SText t :: is). constructor; auto. split; auto. now apply not_param.
  Qed.
  (** contents that the text determines *)
  Lemma plain_param (a : argument B) : name_ok (arg_name a) -> is_empty a -> param_wo (arg_spec a) a /\ ~ In 32 (arg_spec a).
  Proof.
    assert (N : forall n, name_ok n -> name_of (printed_name n) = n).
    { intros n H. apply name_of_printed. destruct n; [|discriminate]. destruct H. congruence. }
    assert (S : forall n c, name_ok n -> c <> 32 -> ~ In 32 (CH_PERCENT :: c :: printed_name n)).
    { intros n c H Hc [K|[K|K]]; [discriminate|congruence|]. destruct n as [x|]; [|destruct K]. destruct K as [K|K]; [discriminate|]. now destruct H. }
    destruct a as [n v|n v|n v|n v]; cbn [arg_name is_empty]; intros Hn ->; cbn [arg_spec].
    - split; [|now apply (S n 115)]. pose proof (pw_string (B := B) (printed_name n)) as X. rewrite N in X by auto. exact X.
    - split; [|now apply (S n 100)]. pose proof (pw_number (B := B) (printed_name n)) as X. rewrite N in X by auto. exact X.
    - split; [|now apply (S n 98)]. pose proof (pw_boolean (B := B) (printed_name n)) as X. rewrite N in X by auto. exact X.
    - split; [|now apply (S (Some n) 109)]. apply pw_menu. exact (N (Some n) Hn).
  Qed.
  Lemma param_wo_plain t (a : argument B) : param_wo t a -> ~ In 32 t -> name_ok (arg_name a) /\ is_empty a.
  Proof.
    assert (G : forall c r, ~ In 32 (CH_PERCENT :: c :: r) -> name_ok (name_of r)).
    { intros c r H. destruct (name_of r) as [n|] eqn:E; [|exact I]. apply name_of_some in E as [Hn ->]. split; auto. cbn [In] in H. tauto. }
    intros H K. inversion H; subst; cbn [arg_name is_empty]; (split; [|reflexivity]).
    1-3: now apply (G _ _ K). rewrite <- H0. now apply (G _ _ K).
  Qed.
  Lemma parse_printed is : @parse_wo_params B (content_to_string is) = Ok is <-> is <> [] /\ Forall plain_item is.
  Proof.
    unfold parse_wo_params. rewrite items_wo_iff, content_to_string_join. split.
    - intros H. split. { intros ->. cbn in H. inversion H. }
      pose proof (split_on_In CH_SPACE (join CH_SPACE (map item_spec is))) as F. revert H F.
      generalize (split_on CH_SPACE (join CH_SPACE (map item_spec is))). clear. intros ts H. induction H as [|t i ts is Hi His IH]; [constructor|].
      intros F. inversion F; subst. constructor; auto. destruct i as [s|a]; cbn [tok_wo plain_item] in *.
      + destruct Hi as [-> Hi]. now split.
      + eapply param_wo_plain; eauto.
    - intros (N & F).
      assert (F' : Forall (fun l => ~ In CH_SPACE l) (map item_spec is)).
      { apply Forall_forall. intros x Hx. apply in_map_iff in Hx as (i & <- & Hi). rewrite Forall_forall in F. specialize (F _ Hi).
        destruct i as [s|a]; cbn [plain_item item_spec] in *; [now destruct F|]. now apply plain_param. }
      rewrite split_join by (auto; intros E; apply map_eq_nil in E; congruence).
      clear N F'. induction F as [|i is Hi F IH]; cbn [map]; constructor; auto.
      destruct i as [s|a]; cbn [plain_item item_spec tok_wo] in *; [now destruct Hi|]. now apply plain_param.
  Qed.

  (** ** Arguments *)
  Lemma token_apply t args (a : argument B) : param_wo t a ->
    (forall n v x r, a = ArgMenu n v -> args = x :: r -> starts_with [AT] x = false) ->
    token_parse t args = apply_arg a args.
  Proof.
    intros H M. inversion H; subst; unfold token_parse; rewrite spec_name_ascii by lia; cbn [bind nth_error unwrap N.eqb Pos.eqb apply_arg apply_value].
    1-3: destruct args as [|x args]; [reflexivity|]; cbn [take_arg bind]; destruct (value_or_block _ x); reflexivity.
    rewrite H0. cbn [unwrap bind]. destruct args as [|x args]; [reflexivity|]. cbn [take_arg bind]. unfold value_or_block.
    now rewrite (M _ _ _ _ eq_refl eq_refl).
  Qed.
  Definition menus_plain (is : list (spec_item B)) (args : list str) : Prop :=
    forall i n v x, nth_error (get_args is) i = Some (ArgMenu n v) -> nth_error args i = Some x -> forall r, x <> 64 :: r.
  Lemma apply_arg_shape (a b : argument B) args r : apply_arg a args = Ok (b, r) -> is_empty a -> exists x, args = x :: r.
  Proof.
    intros H E. destruct a as [n v|n v|n v|n v]; cbn [is_empty] in E; subst v; cbn [apply_arg apply_value] in H.
    all: destruct args as [|x args]; [discriminate|]; cbn [take_arg bind] in H; destruct (value_or_block _ x); try discriminate; injection H as <- <-; eauto.
  Qed.
  Lemma param_wo_empty t (a : argument B) : param_wo t a -> is_empty a.
  Proof. intros H. now inversion H; subst. Qed.
  Lemma starts_at_iff x : starts_with [AT] x = false <-> forall r, x <> 64 :: r.
  Proof.
    rewrite starts_at. destruct x as [|c x]; [split; [discriminate|auto]|]. destruct (N.eqb_spec c AT) as [->|H].
    - split; [discriminate|]. intros K. exfalso. now apply (K x).
    - split; auto. intros _ r [= -> _]. now apply H.
  Qed.
  Lemma items_apply ts is args : @items_wo_params B ts = Ok is -> menus_plain is args -> items_parse ts args = apply_args is args.
  Proof.
    intros H. apply (proj1 (items_wo_iff _ _)) in H. revert args. induction H as [|t i ts is Hi His IH]; intros args M; [reflexivity|].
    cbn [items_parse]. destruct i as [s|a]; cbn [tok_wo] in Hi; cbn [apply_args].
    - destruct Hi as [-> Hi]. apply (proj2 (not_param t)) in Hi. rewrite Hi. rewrite IH; [reflexivity|exact M].
    - assert (P : starts_with [CH_PERCENT] t = true).
      { destruct (starts_with [CH_PERCENT] t) eqn:P; auto. apply (proj1 (not_param t)) in P. apply param_wo_is in Hi. tauto. }
      rewrite P. rewrite (token_apply t args a Hi).
      + destruct (apply_arg a args) as [[b r]| |] eqn:E; cbn [bind]; auto. rewrite IH; [reflexivity|].
        intros i n v x G1 G2. destruct (apply_arg_shape _ _ _ _ E (param_wo_empty _ _ Hi)) as (y & ->). now apply (M (S i) n v x).
      + intros n v x r -> ->. apply starts_at_iff. now apply (M 0%nat n v x).
  Qed.
  Lemma gives_carries ts args is : @gives B ts args is -> exists used extra, args = used ++ extra /\ Forall2 carries used (get_args is).
  Proof.
    intros H. induction H; cbn [get_args flat_map app].
    - exists [], args. split; [reflexivity|constructor].
    - exact IHgives.
    - destruct IHgives as (u & e & -> & F). exists (a :: u), e. split; [reflexivity|]. constructor; [now constructor|exact F].
    - destruct IHgives as (u & e & -> & F). exists (a :: u), e. split; [reflexivity|]. constructor; [now constructor|exact F].
    - destruct IHgives as (u & e & -> & F). exists (a :: u), e. split; [reflexivity|]. constructor; [now constructor|exact F].
    - destruct IHgives as (u & e & -> & F). exists (a :: u), e. split; [reflexivity|]. constructor; [now constructor|exact F].
  Qed.
  Lemma gives_surplus ts args is extra : @gives B ts args is -> gives ts (args ++ extra) is.
  Proof. intros H. induction H; cbn [app]; constructor; auto. Qed.
  Definition param_count (ts : list str) : nat := length (filter (starts_with [CH_PERCENT]) ts).
  Lemma param_word_starts t l n : param_word t l n -> starts_with [CH_PERCENT] t = true.
  Proof. intros (r & -> & _). rewrite starts_percent. reflexivity. Qed.
  Lemma gives_count ts args is : @gives B ts args is -> length (get_args is) = param_count ts /\ (param_count ts <= length args)%nat.
  Proof.
    intros H. unfold param_count. induction H; cbn [get_args flat_map app filter length].
    - split; [reflexivity|lia].
    - apply (proj2 (not_param t)) in H. rewrite H. exact IHgives.
    - rewrite (param_word_starts _ _ _ H). cbn [length]. unfold get_args in IHgives. lia.
    - rewrite (param_word_starts _ _ _ H). cbn [length]. unfold get_args in IHgives. lia.
    - rewrite (param_word_starts _ _ _ H). cbn [length]. unfold get_args in IHgives. lia.
    - rewrite (param_word_starts _ _ _ H). cbn [length]. unfold get_args in IHgives. lia.
  Qed.
  (** parsing succeeds only if parsing without arguments does, and then the arguments are those of [apply_args] *)
  Lemma gives_wo ts args is : @gives B ts args is ->
    exists is0, items_wo_params ts = Ok is0 /\ length (get_args is0) = length (get_args is) /\
      (apply_args is0 args = Ok is -> menus_plain is0 args).
  Proof.
    intros H. assert (K : exists is0, Forall2 tok_wo ts is0 /\ length (get_args is0) = length (get_args is) /\ (apply_args is0 args = Ok is -> menus_plain is0 args)).
    { induction H; try destruct IHgives as (is0 & F & L & M).
      - exists []. split; [constructor|]. split; [reflexivity|]. intros _ i n v x H. destruct i; discriminate.
      - exists (SText t :: is0). split; [constructor; [now split|auto]|]. split; [exact L|]. cbn [apply_args]. intros E.
        destruct (apply_args is0 args) eqn:A; cbn [bind] in E; try discriminate. injection E as <-. now apply M.
      - apply (proj1 (param_word_iff t "s" 115 n eq_refl)) in H as (r & -> & <-). exists (SParam (ArgString (name_of r) AEmpty) :: is0).
        split; [constructor; [constructor|auto]|]. split; [cbn [get_args flat_map app length]; now f_equal|]. cbn [apply_args apply_arg apply_value take_arg bind].
        destruct (value_or_block Ok a); try discriminate. cbn [bind]. destruct (apply_args is0 args) eqn:A; try discriminate. cbn [bind]. intros [= -> ->].
        specialize (M eq_refl). intros [|i] n v' x G1 G2; [discriminate|]. now apply (M i n v' x).
      - apply (proj1 (param_word_iff t "b" 98 n eq_refl)) in H as (r & -> & <-). exists (SParam (ArgBoolean (name_of r) AEmpty) :: is0).
        split; [constructor; [constructor|auto]|]. split; [cbn [get_args flat_map app length]; now f_equal|]. cbn [apply_args apply_arg apply_value take_arg bind].
        destruct (value_or_block boolean_arg a); try discriminate. cbn [bind]. destruct (apply_args is0 args) eqn:A; try discriminate. cbn [bind]. intros [= -> ->].
        specialize (M eq_refl). intros [|i] n v' x G1 G2; [discriminate|]. now apply (M i n v' x).
      - apply (proj1 (param_word_iff t "d" 100 n eq_refl)) in H as (r & -> & <-). exists (SParam (ArgNumber (name_of r) AEmpty) :: is0).
        split; [constructor; [constructor|auto]|]. split; [cbn [get_args flat_map app length]; now f_equal|]. cbn [apply_args apply_arg apply_value take_arg bind].
        destruct (value_or_block number_arg a); try discriminate. cbn [bind]. destruct (apply_args is0 args) eqn:A; try discriminate. cbn [bind]. intros [= -> ->].
        specialize (M eq_refl). intros [|i] n v' x G1 G2; [discriminate|]. now apply (M i n v' x).
      - apply (proj1 (param_word_iff t "m" 109 (Some n) eq_refl)) in H as (r & -> & E). exists (SParam (ArgMenu n AEmpty) :: is0).
        split; [constructor; [now constructor|auto]|]. split; [cbn [get_args flat_map app length]; now f_equal|]. cbn [apply_args apply_arg apply_value take_arg bind].
        unfold value_or_block. destruct (starts_with [AT] a) eqn:S.
        { destruct (unwrap (bdrop 1 a)); try discriminate. cbn [bind]. destruct (ok_or _ _); try discriminate. cbn [bind]. destruct (apply_args is0 args); discriminate. }
        cbn [bind]. destruct (apply_args is0 args) eqn:A; try discriminate. cbn [bind]. intros [= ->]. specialize (M eq_refl).
        intros [|i] n' v' x G1 G2; [|now apply (M i n' v' x)]. cbn in G2. injection G2 as <-. now apply starts_at_iff. }
    destruct K as (is0 & F & L & M). exists is0. split; [now apply items_wo_iff|auto].
  Qed.

  (** ** Panics *)
  Lemma value_or_block_nopanic {T} (f : str -> res content_error T) a : (forall x, f x <> Panic) -> @value_or_block B T f a <> Panic.
  Proof.
    intros H. unfold value_or_block. rewrite starts_at. destruct a as [|c r].
    - specialize (H []). destruct (f []); try discriminate; congruence.
    - destruct (N.eqb_spec c AT) as [->|].
      + cbn [bdrop]. change (u8len AT <=? 1)%nat with true. cbv iota. change (1 - u8len AT)%nat with 0%nat.
        assert (E0 : bdrop 0 r = Some r) by (destruct r; reflexivity). rewrite E0. cbn [unwrap bind]. destruct (parse_u32 r); discriminate.
      + specialize (H (c :: r)). destruct (f (c :: r)); try discriminate; congruence.
  Qed.
  Lemma token_parse_panic t args : starts_with [CH_PERCENT] t = true -> @token_parse B t args = Panic -> bad_token t.
  Proof.
    rewrite starts_percent. destruct t as [|p t]; [discriminate|]. intros Hp. apply N.eqb_eq in Hp. subst p.
    unfold token_parse. destruct t as [|c r]; [now left|]. intros H.
    destruct (spec_name (CH_PERCENT :: c :: r)) as [n| |] eqn:En; cbn [bind] in H; try discriminate.
    2: { apply spec_name_panic in En as (n & -> & Hc). right; right; eauto. }
    cbn [nth_error unwrap bind] in H. revert H.
    destruct (N.eqb_spec c 115).
    { destruct args as [|a args]; [discriminate|]. cbn [take_arg bind]. pose proof (value_or_block_nopanic Ok a ltac:(discriminate)). destruct (value_or_block Ok a); [discriminate..|tauto]. }
    destruct (N.eqb_spec c 98).
    { destruct args as [|a args]; [discriminate|]. cbn [take_arg bind]. pose proof (value_or_block_nopanic boolean_arg a) as V.
      destruct (value_or_block boolean_arg a); [discriminate..|]. intros _. exfalso. apply V; auto. intros x. unfold boolean_arg. destruct (parse_bool x); discriminate. }
    destruct (N.eqb_spec c 100).
    { destruct args as [|a args]; [discriminate|]. cbn [take_arg bind]. pose proof (value_or_block_nopanic number_arg a) as V.
      destruct (value_or_block number_arg a); [discriminate..|]. intros _. exfalso. apply V; auto. intros x. unfold number_arg. destruct (parse_f64 x); discriminate. }
    destruct (N.eqb_spec c 109) as [->|]; [|discriminate]. rewrite spec_name_ascii in En by lia. injection En as <-.
    destruct (name_of r) eqn:E; [destruct args; discriminate|]. right; left; eauto.
  Qed.
  Lemma bad_token_panics t args : bad_token t -> @token_parse B t args = Panic /\ @token_wo_params B t = Panic.
  Proof.
    intros [->|[(r & -> & E)|(c & r & -> & Hc)]].
    - split; reflexivity.
    - unfold token_parse, token_wo_params. rewrite spec_name_ascii by lia. cbn [bind nth_error unwrap N.eqb Pos.eqb]. rewrite E. split; reflexivity.
    - unfold token_parse, token_wo_params. replace (spec_name (CH_PERCENT :: c :: CH_DOT :: r)) with (@Panic content_error (option str)); [split; reflexivity|].
      symmetry. apply spec_name_panic. eauto.
  Qed.
  Lemma bad_token_param t : bad_token t -> is_param t.
  Proof. intros [->|[(r & -> & _)|(c & r & -> & _)]]; eexists; reflexivity. Qed.
  Lemma items_parse_panic ts args : @items_parse B ts args = Panic -> exists t, In t ts /\ bad_token t.
  Proof.
    revert args. induction ts as [|t ts IH]; intros args; cbn [items_parse]; [discriminate|].
    destruct (starts_with [CH_PERCENT] t) eqn:P.
    - intros H. apply bind_panic in H as [H|([a r] & _ & H)].
      + apply token_parse_panic in H; auto. exists t. split; [now left|auto].
      + apply bind_panic in H as [H|(? & _ & H)]; [|discriminate]. apply IH in H as (x & ? & ?). exists x. split; [now right|auto].
    - intros H. apply bind_panic in H as [H|(? & _ & H)]; [|discriminate]. apply IH in H as (x & ? & ?). exists x. split; [now right|auto].
  Qed.
  Lemma items_wo_panic ts : @items_wo_params B ts = Panic -> exists t, In t ts /\ bad_token t.
  Proof.
    induction ts as [|t ts IH]; cbn [items_wo_params]; [discriminate|].
    intros H. apply bind_panic in H as [H|(i & _ & H)].
    - destruct (starts_with [CH_PERCENT] t) eqn:P; [|discriminate]. apply bind_panic in H as [H|(? & _ & H)]; [|discriminate].
      apply token_wo_panic in H; auto. exists t. split; [now left|auto].
    - apply bind_panic in H as [H|(? & _ & H)]; [|discriminate]. apply IH in H as (x & ? & ?). exists x. split; [now right|auto].
  Qed.
End C3.
