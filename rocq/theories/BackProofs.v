(** What becomes of every tree that is written as raw blocks and read again ([SpecBack.v]). *)
From Verif Require Import Base Spec Str Dec Flt FltProofs FltCanon SpecNumber NumberStdProofs M_Color ColorProofs M_Logic A_Block SpecBlock LogicMapProofs BlockContentProofs BlockProofs BlockReadProofs
  BlockWriteProofs BlockTripProofs BlockFailProofs SpecBack.
From Coq Require Import ZifyNat ZifyN ZifyBool.

Lemma last_block_below b : last_block b = match below last_block b with Some y => y | None => b end.
Proof. destruct b; reflexivity. Qed.
Lemma boolean_literal t : boolean_block t = literal_block t.
Proof. destruct t; reflexivity. Qed.

(** ** The last raw block *)
Definition childless (y : ablock) : Prop := below last_block y = None.
Definition tail_is (y : ablock) (bs : list block) (c' : N) : Prop :=
  exists pre pb, bs = pre ++ [pb] /\ childless y /\ 0 < c' /\ convert_block y (c' - 1) true = Ok ([pb], c').
Lemma tail_app x y bs c' : tail_is y bs c' -> tail_is y (x ++ bs) c'.
Proof. intros (pre & pb & -> & H). exists (x ++ pre), pb. now rewrite app_assoc. Qed.
Definition conv_tail (b : ablock) : Prop := forall c bs c', convert_block b c true = Ok (bs, c') -> tail_is (last_block b) bs c'.
Lemma stack_last_some f l : l <> [] -> exists y, stack_last f l = Some y.
Proof. destruct l as [|b l]; [congruence|]. intros _. cbn [stack_last]. destruct (stack_last f l); cbn; eauto. Qed.
Lemma stack_tail l : stack_all conv_tail l -> forall c bs c', conv_stack convert_block l c = Ok (bs, c') ->
  match stack_last last_block l with Some y => tail_is y bs c' | None => bs = [] /\ c' = c end.
Proof.
  induction l as [|b l IH]; cbn [stack_all conv_stack stack_last]; intros Q c bs c' H; [injection H as <- <-; auto|]. destruct Q as [Q1 Q].
  apply bind_ok in H as ([x c1] & H1 & H). apply bind_ok in H as ([y c2] & H2 & [= <- <-]). specialize (IH Q _ _ _ H2). destruct l as [|b' l].
  - cbn [stack_last or_else]. cbn in H2. injection H2 as <- <-. rewrite app_nil_r. now apply (Q1 c).
  - destruct (stack_last_some last_block (b' :: l)) as [z Hz]; [discriminate|]. rewrite Hz in *. cbn [or_else]. now apply tail_app.
Qed.
Lemma sub_tail s c z bs c' : sub_all conv_tail s -> sub_ptr s c z bs c' ->
  match sub_last last_block s with Some y => tail_is y bs c' /\ z = Z.of_N c' | None => bs = [] /\ c' = c /\ z = (-1)%Z end.
Proof.
  destruct s as [[|b l]|]; cbn [sub_all sub_ptr sub_last]; intros Q H; [cbn; tauto| |tauto]. destruct H as (-> & _ & H). apply stack_tail in H; auto.
  destruct (stack_last_some last_block (b :: l)) as [y Hy]; [discriminate|]. rewrite Hy in *. auto.
Qed.
Lemma literal_tail t c : tail_is (boolean_block t) [literal_raw t (c + 1)] (c + 1).
Proof.
  exists [], (literal_raw t (c + 1)). split; [reflexivity|]. split; [destruct t; reflexivity|]. split; [lia|].
  replace (c + 1 - 1) with c by lia. rewrite boolean_literal. apply convert_literal.
Qed.
Lemma value_tail {T} (f : T -> str) (v : arg_value ablock T) c p bs c' : value_all conv_tail v -> conv_value convert_block f v c = Ok (p, bs, c') ->
  match value_last last_block v with Some y => tail_is y bs c' /\ p = lit "@" ++ dec_of_N c' | None => bs = [] /\ c' = c end.
Proof.
  destruct v as [t|b|i|]; cbn [value_all conv_value value_last]; intros Q H; try discriminate; try (injection H as <- <- <-; auto).
  apply bind_ok in H as ([bs0 c0] & H & [= <- <- <-]). split; [|reflexivity]. now apply (Q c).
Qed.
Lemma arg_tail a c p bs c' : item_all conv_tail (SParam a) -> conv_arg convert_block a c = Ok (p, bs, c') ->
  match item_last last_block (SParam a) with Some y => tail_is y bs c' /\ p = lit "@" ++ dec_of_N c' | None => bs = [] /\ c' = c end.
Proof.
  destruct a as [n v|n v|n v|n v]; cbn [item_all conv_arg item_last]; intros Q H; try (eapply value_tail; eauto; fail).
  destruct v as [t|b|i|]; try (apply (value_tail _ _ _ _ _ _ Q H)). injection H as <- <- <-. split; [apply literal_tail|reflexivity].
Qed.
Lemma items_tail items : items_all conv_tail items -> forall c ps bs c', conv_args convert_block items c = Ok (ps, bs, c') ->
  match items_last last_block items with Some y => tail_is y bs c' | None => bs = [] /\ c' = c end.
Proof.
  induction items as [|[t|a] items IH]; cbn [items_all conv_args items_last]; intros Q c ps bs c' H.
  - injection H as <- <- <-. auto.
  - specialize (IH (proj2 Q) _ _ _ _ H). cbn [item_last]. destruct (items_last last_block items); exact IH.
  - destruct Q as [Qa Q]. apply bind_ok in H as ([[p x] c1] & Ha & H). apply bind_ok in H as ([[ps' y] c2] & H & [= <- <- <-]).
    specialize (IH Q _ _ _ _ H). apply arg_tail in Ha; auto. destruct (items_last last_block items) as [z|]; cbn [or_else]; [now apply tail_app|].
    destruct IH as [-> ->]. rewrite app_nil_r. destruct (item_last last_block (SParam a)); tauto.
Qed.
Lemma all_tails b : conv_tail b.
Proof.
  induction b as [s1 s2 col op items ty Q1 Q2 Q] using ablock_induct. intros c bs c' H. pose proof H as H0.
  apply convert_block_inv in H as (ps & ba & c1 & z1 & b1 & c2 & z2 & b2 & Ha & H1 & H2 & E). rewrite last_block_below.
  assert (C : below last_block (MkBlock s1 s2 col op items ty) = None -> childless (MkBlock s1 s2 col op items ty)) by auto. revert C.
  unfold below. cbn [ab_content ab_sub_stack1 ab_sub_stack2] in *. intros C.
  apply items_tail in Ha; auto. apply sub_tail in H1; auto. apply sub_tail in H2; auto.
  destruct (sub_last last_block s2) as [y|]; cbn [or_else] in *.
  { rewrite E. match goal with |- tail_is _ (?x :: ?y ++ ?z ++ ?w) _ => change (x :: y ++ z ++ w) with ([x] ++ (y ++ (z ++ w))) end. now do 3 apply tail_app. }
  destruct H2 as (-> & -> & ->). rewrite app_nil_r in E. destruct (sub_last last_block s1) as [y|]; cbn [or_else] in *.
  { rewrite E. match goal with |- tail_is _ (?x :: ?y ++ ?z) _ => change (x :: y ++ z) with ([x] ++ (y ++ z)) end. now do 2 apply tail_app. }
  destruct H1 as (-> & -> & ->). rewrite app_nil_r in E. destruct (items_last last_block items) as [y|]; cbn [or_else] in *.
  { rewrite E. match goal with |- tail_is _ (?x :: ?y) _ => change (x :: y) with ([x] ++ y) end. now apply tail_app. }
  destruct Ha as [-> ->]. rewrite E. match goal with |- tail_is _ [?x] _ => exists [], x end. split; [reflexivity|]. split; [now apply C|]. split; [lia|].
  replace (c + 1 - 1) with c by lia. now rewrite H0, E.
Qed.

(** ** Specs *)
Lemma conv_args_shown items c : conv_args convert_block (shown items) c = conv_args convert_block items c.
Proof. destruct items; reflexivity. Qed.
Lemma plain_shown items : Forall item_plain items -> Forall item_plain (shown items).
Proof. destruct items; auto. intros _. constructor; [|constructor]. split; [intros []|]. intros [r X]. discriminate. Qed.
Lemma item_plain_named l : Forall item_plain l -> Forall item_named l.
Proof. apply Forall_impl. intros [t|a]; cbn; tauto. Qed.
Lemma shown_words b id next ps z1 z2 : block_plain b ->
  forall ws, words (bl_spec (raw b id next ps z1 z2)) ws <-> ws = map item_spec (shown (ab_content b)).
Proof.
  intros F ws. destruct (ab_content b) as [|i l] eqn:E.
  - cbn [raw bl_spec]. rewrite E, words_split. reflexivity.
  - rewrite raw_words; [rewrite E; reflexivity|congruence|]. unfold block_plain in F. now apply item_plain_named.
Qed.

(** ** Arguments *)
Lemma or_else_none {A} (x y : option A) : or_else x y = None <-> x = None /\ y = None.
Proof. destruct x; cbn; split; intros H; try tauto; try discriminate; now destruct H. Qed.
(** what is read for an argument before references are followed; [k] is the id that the argument refers to *)
Definition hole_at {T} (v : arg_value ablock T) (k : N) (e : arg_value ablock T) : arg_value ablock T :=
  match v with ABlock _ => APlaceholder k | AEmpty => e | _ => v end.
Definition arg_hole (a : argument ablock) (k : N) : argument ablock :=
  match a with
  | ArgString n v => ArgString n (hole_at v k (AValue []))
  | ArgNumber n v => ArgNumber n (hole_at v k AEmpty)
  | ArgBoolean n (AValue t) => ArgBoolean n (APlaceholder k)
  | ArgBoolean n v => ArgBoolean n (hole_at v k AEmpty)
  | ArgMenu n v => ArgMenu n (hole_at v k (AValue []))
  end.
Lemma gives_here a c p x c1 ts ps hs : item_plain (SParam a) -> item_given (SParam a) -> conv_arg convert_block a c = Ok (p, x, c1) -> c1 < 2 ^ 31 ->
  gives ts ps hs -> gives (arg_spec a :: ts) (p :: ps) (SParam (arg_hole a c1) :: hs).
Proof.
  intros [N P] K Ha L Gv. pose proof (proj2 (param_spec a N)) as W.
  destruct a as [n v|n v|n v|n v]; cbn [conv_arg arg_hole item_given] in *; destruct v as [t|b|i|]; cbn [conv_value hole_at] in *; try tauto; try discriminate;
    try (apply bind_ok in Ha as ([bs0 c0] & _ & [= <- <- <-])); try (injection Ha as <- <- <-).
  - apply gives_string; auto. now apply reads_at_none.
  - apply gives_string; auto. now apply ref_reads.
  - apply gives_string; auto. apply reads_at_none; [discriminate|reflexivity].
  - apply gives_number; auto. apply reads_at_none; [now apply display_f64_at|now apply parse_f64_text, parse_display_f64].
  - apply gives_number; auto. now apply ref_reads.
  - apply gives_boolean; auto. now apply ref_reads.
  - apply gives_boolean; auto. now apply ref_reads.
  - now apply gives_menu.
  - now apply gives_menu.
Qed.
Lemma gives_tail (a : argument ablock) p ts ps (holes : list (spec_item ablock)) : is_param (arg_spec a) -> gives (arg_spec a :: ts) (p :: ps) holes -> exists h hs, holes = SParam h :: hs /\ gives ts ps hs.
Proof. intros Hp Gv. inversion Gv; subst; eauto. tauto. Qed.
Lemma gives_given a c p x c1 ts ps (hs : list (spec_item ablock)) : item_plain (SParam a) -> conv_arg convert_block a c = Ok (p, x, c1) -> gives (arg_spec a :: ts) (p :: ps) hs -> item_given (SParam a).
Proof.
  intros [N P] Ha Gv. pose proof (proj2 (param_spec a N)) as W.
  destruct a as [n v|n v|n v|n v]; destruct v as [t|b|i|]; try exact I; cbn [conv_arg conv_value] in Ha; injection Ha as <- <- <-; cbn [item_given]; destruct W as (r & E & _); rewrite E in Gv.
  - inversion Gv as [|t' ts' args is Hp|? ? ? ? ? ? ? Hp Rv|? ? ? ? ? ? ? Hp Rv|? ? ? ? ? ? ? Hp Rv|? ? ? ? ? ? Hp]; subst; try (destruct Hp as (r' & E' & _); discriminate).
    + apply Hp. now eexists.
    + destruct v as [x| |i|]; cbn [reads_as] in Rv; try tauto; [|destruct Rv as (r' & X & _); discriminate]. destruct Rv as [_ Rv]. apply parse_f64_text in Rv. vm_compute in Rv. discriminate.
  - inversion Gv as [|t' ts' args is Hp|? ? ? ? ? ? ? Hp Rv|? ? ? ? ? ? ? Hp Rv|? ? ? ? ? ? ? Hp Rv|? ? ? ? ? ? Hp]; subst; try (destruct Hp as (r' & E' & _); discriminate).
    + apply Hp. now eexists.
    + destruct v as [x| |i|]; cbn [reads_as] in Rv; try tauto; [|destruct Rv as (r' & X & _); discriminate]. destruct Rv as [_ Rv]. destruct x; discriminate.
Qed.

(** ** The references of an argument *)
(** a block below which there is nothing is read at the place where it is written *)
Definition ref_ok (gv : ablock -> Prop) (G : N -> block -> Prop) (y : ablock) : Prop :=
  forall k pb, childless y -> convert_block y k true = Ok ([pb], k + 1) -> G (k + 1) pb -> k + 1 < 2 ^ 31 ->
    (gv y -> reads_block G (k + 1) (block_alone y) [k + 1]) /\
    (forall x u, reads_block G (k + 1) x u -> x = block_alone y /\ gv y).
Lemma tail_ref gv G y c bs c' : ref_ok gv G y -> tail_is y bs c' -> emb G c bs -> c' = c + N.of_nat (length bs) -> c' < 2 ^ 31 ->
  (gv y -> reads_block G c' (block_alone y) [c']) /\ (forall x u, reads_block G c' x u -> x = block_alone y /\ gv y).
Proof.
  intros R (pre & pb & -> & C & P & H) E Ec L. apply emb_last with (c' := c') in E; auto.
  specialize (R (c' - 1) pb C). replace (c' - 1 + 1) with c' in R by lia. now apply R.
Qed.
Section Args.
  Context (G : N -> block -> Prop) (Gf : forall id x y, G id x -> G id y -> x = y) (gv : ablock -> Prop).
  Lemma literal_ref t : ref_ok block_given G (boolean_block t).
  Proof.
    intros k pb C H E L. rewrite boolean_literal in *. assert (A : block_alone (literal_block t) = literal_block t) by (destruct t; reflexivity). rewrite A.
    pose proof (literal_leaf t) as Lf. pose proof (proj1 (proj1 (leaf_leaf0 _) Lf)) as Lf0. split.
    - intros _. eapply leaf_reads; eauto. intros [|[|i]] q X; try discriminate. injection X as <-. now rewrite N.add_0_r.
    - intros x u R. destruct (leaf_reads_inv G _ _ _ _ _ _ Gf Lf0 H E R) as [-> _]. split; [reflexivity|]. split; [exact I|]. destruct t; repeat constructor.
  Qed.
  Lemma arg_back_reads a c p x c1 : item_plain (SParam a) -> Forall (ref_ok gv G) (item_read (SParam a)) -> conv_arg convert_block a c = Ok (p, x, c1) -> emb G c x -> c1 < 2 ^ 31 ->
    item_given (SParam a) ->
    exists b, item_back (SParam a) = SParam b /\
      (Forall gv (item_read (SParam a)) -> exists v, reads_arg G (arg_hole a c1) b v /\ within c v c1) /\
      (forall b' v, reads_arg G (arg_hole a c1) b' v -> b' = b /\ Forall gv (item_read (SParam a))).
  Proof.
    intros P R Ha E L K. pose proof (conv_arg_le _ _ _ _ _ Ha) as [Lc _].
    pose proof (arg_tail _ _ _ _ _ (item_all_intro _ (SParam a) all_tails) Ha) as T.
    assert (Wi : forall k, k = c1 -> c < c1 -> within c [k] c1).
    { intros k -> Lk. split; [constructor; [intros []|constructor]|]. intros j [<-|[]]. lia. }
    assert (Lt : forall y, tail_is y x c1 -> c < c1).
    { intros y (pre & pb & -> & _). rewrite app_length in Lc. cbn [length] in Lc. lia. }
    destruct a as [n v|n v|n v|n v]; destruct v as [t|b|i|]; cbn [conv_arg conv_value] in Ha; try discriminate; cbn [item_given] in K; try tauto;
      cbn [item_back item_alone item_read arg_hole hole_at item_last value_last] in *; (eexists; split; [reflexivity|]).
    - split; [intros _; exists []; split; [constructor|apply within_nil]|]. intros b' v X. inversion X; subst. auto.
    - pose proof (Forall_inv R) as R1. destruct T as [T _]. destruct (tail_ref _ _ _ _ _ _ R1 T E Lc L) as [A B]. split.
      + intros F. apply Forall_inv in F. exists [c1]. split; [constructor; auto|apply Wi; eauto].
      + intros b' v X. clear Lc. inversion X as [| | | |? ? ? ? Rb| | | |]; subst. apply B in Rb as [-> ?]. auto.
    - split; [intros _; exists []; split; [constructor|apply within_nil]|]. intros b' v X. inversion X; subst. auto.
    - split; [intros _; exists []; split; [constructor|apply within_nil]|]. intros b' v X. inversion X; subst. auto.
    - pose proof (Forall_inv R) as R1. destruct T as [T _]. destruct (tail_ref _ _ _ _ _ _ R1 T E Lc L) as [A B]. split.
      + intros F. apply Forall_inv in F. exists [c1]. split; [constructor; auto|apply Wi; eauto].
      + intros b' v X. clear Lc. inversion X as [| | | | |? ? ? ? Rb| | |]; subst. apply B in Rb as [-> ?]. auto.
    - destruct T as [T _]. destruct (tail_ref _ _ _ _ _ _ (literal_ref t) T E Lc L) as [A B].
      assert (Gt : block_given (boolean_block t)) by (split; [exact I|destruct t; repeat constructor]). specialize (A Gt).
      assert (O : ab_op_code (block_alone (boolean_block t)) = lit (if t then "true" else "false")) by (destruct t; reflexivity). split.
      + intros _. exists [c1]. split; [|apply Wi; eauto]. destruct t; [eapply rd_true|eapply rd_false]; eauto.
      + intros b' v X. split; [|constructor]. clear Lc. inversion X as [| | | | | |? ? ? ? Rb Eb|? ? ? ? Rb Eb|? ? ? ? Rb Eb Eb']; subst; apply B in Rb as [-> _]; rewrite O in *; destruct t; auto; try discriminate; congruence.
    - pose proof (Forall_inv R) as R1. destruct T as [T _]. destruct (tail_ref _ _ _ _ _ _ R1 T E Lc L) as [A B].
      assert (O : ab_op_code (block_alone (last_block b)) = ab_op_code (last_block b)) by reflexivity. cbv zeta. split.
      + intros F. apply Forall_inv in F. specialize (A F). exists [c1]. split; [|apply Wi; eauto].
        destruct (str_eqb (ab_op_code (last_block b)) (lit "true")) eqn:E1; [apply str_eqb_eq in E1; eapply rd_true; eauto; congruence|].
        destruct (str_eqb (ab_op_code (last_block b)) (lit "false")) eqn:E2; [apply str_eqb_eq in E2; eapply rd_false; eauto; congruence|].
        eapply rd_boolean_block; eauto; rewrite O; intros X; apply str_eqb_eq in X; congruence.
      + intros b' v X. clear Lc. inversion X as [| | | | | |? ? ? ? Rb Eb|? ? ? ? Rb Eb|? ? ? ? Rb Eb Eb']; subst; apply B in Rb as [-> F]; rewrite O in *; (split; [|auto]).
        * now rewrite Eb, str_eqb_refl.
        * now rewrite Eb.
        * destruct (str_eqb (ab_op_code (last_block b)) (lit "true")) eqn:E1; [apply str_eqb_eq in E1; congruence|].
          destruct (str_eqb (ab_op_code (last_block b)) (lit "false")) eqn:E2; [apply str_eqb_eq in E2; congruence|reflexivity].
    - split; [intros _; exists []; split; [constructor|apply within_nil]|]. intros b' v X. inversion X; subst. auto.
    - now destruct P.
    - split; [intros _; exists []; split; [constructor|apply within_nil]|]. intros b' v X. inversion X; subst. auto.
  Qed.
  Lemma items_back_reads items : Forall item_plain items -> Forall (ref_ok gv G) (flat_map item_read items) -> forall c ps bs c',
    conv_args convert_block items c = Ok (ps, bs, c') -> emb G c bs -> c' < 2 ^ 31 ->
    (Forall item_given items -> Forall gv (flat_map item_read items) ->
     exists holes u, gives (map item_spec items) ps holes /\ reads_items G holes (map item_back items) u /\ within c u c') /\
    (forall holes items' u, gives (map item_spec items) ps holes -> reads_items G holes items' u ->
     items' = map item_back items /\ Forall item_given items /\ Forall gv (flat_map item_read items)).
  Proof.
    intros F. induction F as [|[t|a] items Hi F IH]; cbn [conv_args map item_spec flat_map]; intros R c ps bs c' H E L.
    - injection H as <- <- <-. split.
      + intros _ _. exists [], []. split; [constructor|split; [constructor|apply within_nil]].
      + intros holes items' u Gv Rd. inversion Gv; subst. inversion Rd; subst. auto.
    - destruct (IH R _ _ _ _ H E L) as [A B]. cbn [item_read app item_back item_alone]. split.
      + intros K Kb. inversion K; subst. destruct A as (holes & u & Gv & Rd & W); auto. exists (SText t :: holes), u. split; [constructor; auto; apply Hi|]. split; [now constructor|auto].
      + intros holes items' u Gv Rd. inversion Gv as [|t' ts args is P Gv'|? ? ? ? ? ? ? P|? ? ? ? ? ? ? P|? ? ? ? ? ? ? P|? ? ? ? ? ? P]; subst.
        2-5: destruct P as (r & -> & _); destruct Hi as [_ Hi]; destruct Hi; now eexists.
        inversion Rd; subst. destruct (B _ _ _ Gv' H4) as (-> & ? & ?). repeat split; auto. constructor; auto. exact I.
    - rewrite Forall_app in R. destruct R as [Ra R]. apply bind_ok in H as ([[p x] c1] & Ha & H). apply bind_ok in H as ([[ps' y] c2] & H & [= <- <- <-]).
      pose proof (conv_args_le _ _ _ _ _ H) as [L2 _]. pose proof (conv_arg_le _ _ _ _ _ Ha) as [L1 _].
      apply (emb_app G c x c1 y) in E as [Ex Ey]; [|lia]. destruct (IH R _ _ _ _ H Ey L) as [A B]. assert (Lx : c1 < 2 ^ 31) by lia.
      pose proof (proj2 (param_spec a (proj1 Hi))) as Wd.
      assert (Hp : is_param (arg_spec a)) by (destruct a; destruct Wd as (r & -> & _); now eexists). split.
      + intros K Kb. apply Forall_cons_iff in K as [K1 K2]. rewrite Forall_app in Kb. destruct Kb as [Kb1 Kb2]. destruct A as (holes & u & Gv & Rd & W); auto.
        destruct (arg_back_reads a c p x c1 Hi Ra Ha Ex Lx K1) as (b & Eb & A1 & _). destruct (A1 Kb1) as (v & Rv & Wv).
        exists (SParam (arg_hole a c1) :: holes), (v ++ u). split; [eapply gives_here; eauto|]. rewrite Eb. split; [now constructor|]. eapply within_app; [| |eauto|eauto]; lia.
      + intros holes items' u Gv Rd. pose proof (gives_given a c p x c1 _ _ _ Hi Ha Gv) as K1.
        destruct (gives_tail a _ _ _ _ Hp Gv) as (h & hs & -> & Gv'). pose proof (gives_here a c p x c1 _ _ _ Hi K1 Ha Lx Gv') as Gv''.
        apply (gives_fun _ _ _ _ Gv) in Gv''. injection Gv'' as ->. inversion Rd as [| |? b v ? i u' Rv Rd']; subst items' u.
        destruct (arg_back_reads a c p x c1 Hi Ra Ha Ex Lx K1) as (b0 & Eb & _ & B1). apply B1 in Rv as [-> Kb1]. destruct (B _ _ _ Gv' Rd') as (-> & K2 & Kb2).
        rewrite Eb, Forall_app. repeat split; auto.
  Qed.
End Args.

(** ** Blocks *)
Section Blocks.
  Context (G : N -> block -> Prop) (Gf : forall id x y, G id x -> G id y -> x = y) (gv : ablock -> Prop).
  Definition sub_read (s : option (list ablock)) : list ablock := listed (sub_last last_block s).
  Lemma within_self c u : within c u c -> u = [].
  Proof. intros [_ H]. destruct u as [|k u]; auto. specialize (H k (or_introl eq_refl)). lia. Qed.
  Lemma sub_back_reads s c z bs c' : Forall (ref_ok gv G) (sub_read s) -> sub_ptr s c z bs c' -> emb G c bs -> c' < 2 ^ 31 ->
    (Forall gv (sub_read s) -> exists u, reads_sub G z (sub_back s) u /\ within c u c') /\
    (forall s' u, reads_sub G z s' u -> s' = sub_back s /\ Forall gv (sub_read s)).
  Proof.
    intros R H E L. pose proof (sub_ptr_le _ _ _ _ _ H) as [Lc _]. assert (Q : sub_all conv_tail s) by (destruct s; [apply stack_all_intro, all_tails|exact I]). apply (sub_tail _ _ _ _ _ Q) in H.
    unfold sub_read, sub_back in *. destruct (sub_last last_block s) as [y|]; cbn [listed option_map] in *.
    - destruct H as [T ->]. pose proof (Forall_inv R) as R1. pose proof T as T'. destruct T' as (pre & pb & -> & C & P & Hc). pose proof E as E0. apply emb_last with (c' := c') in E0; auto.
      destruct (tail_ref _ _ _ _ _ _ R1 T E Lc L) as [A B].
      assert (Np : bl_next_block pb = (-1)%Z). { apply convert_block_inv in Hc as (ps & ba & c1 & z1 & b1 & c2 & z2 & b2 & _ & _ & _ & [= -> _]). reflexivity. }
      split.
      + intros F. apply Forall_inv in F. exists [c']. split.
        * constructor; [lia|]. rewrite N2Z.id. eapply rd_last; eauto. lia.
        * rewrite app_length in Lc. cbn [length] in Lc. split; [constructor; [intros []|constructor]|]. intros k [<-|[]]. lia.
      + intros s' u Rd. inversion Rd as [|z' l u' Hz Rs]; subst; [lia|]. rewrite N2Z.id in Rs. inversion Rs as [id pb' b v Eg Hn Rb|id pb' b v l' w Eg Hn Rb Rs']; subst.
        * apply B in Rb as [-> ?]. auto.
        * rewrite (Gf _ _ _ Eg E0) in Hn. lia.
    - destruct H as (-> & -> & ->). split.
      + intros _. exists []. split; [constructor; lia|apply within_nil].
      + intros s' u Rd. inversion Rd; subst; [auto|lia].
  Qed.
  Lemma flat_map_shown {B} (f : spec_item ablock -> list B) items : (forall t, f (SText t) = []) -> flat_map f (shown items) = flat_map f items.
  Proof. intros H. destruct items; auto. cbn. now rewrite H. Qed.
  Lemma given_shown items : Forall item_given (shown items) <-> Forall item_given items.
  Proof. destruct items; [|reflexivity]. split; repeat constructor. Qed.
  Definition refs (b : ablock) : list ablock := sub_read (ab_sub_stack1 b) ++ sub_read (ab_sub_stack2 b) ++ flat_map item_read (ab_content b).
  Lemma block_back_reads b c last bs c' : block_plain b -> Forall (ref_ok gv G) (refs b) ->
    convert_block b c last = Ok (bs, c') -> emb G c bs -> c' < 2 ^ 31 ->
    (block_given b /\ Forall gv (refs b) -> exists u, reads_block G (c + 1) (block_back b) u /\ within c u c') /\
    (forall x u, reads_block G (c + 1) x u -> x = block_back b /\ block_given b /\ Forall gv (refs b)).
  Proof.
    intros P R H E L. apply convert_block_inv in H as (ps & ba & c1 & z1 & b1 & c2 & z2 & b2 & Ha & H1 & H2 & ->). unfold refs in *. rewrite !Forall_app in R. destruct R as (Q1 & Q2 & Q3).
    pose proof (conv_args_le _ _ _ _ _ Ha) as [La _]. pose proof (sub_ptr_le _ _ _ _ _ H1) as [L1 _]. pose proof (sub_ptr_le _ _ _ _ _ H2) as [L2 _].
    apply emb_head in E as [E0 E]. apply (emb_app _ _ _ c1) in E as [Ea E]; [|lia]. apply (emb_app _ _ _ c2) in E as [E1 E2]; [|lia].
    rewrite <- conv_args_shown in Ha. rewrite <- (flat_map_shown item_read) in Q3 by reflexivity.
    destruct (items_back_reads G Gf gv _ (plain_shown _ P) Q3 _ _ _ _ Ha Ea) as [A3 B3]; [lia|].
    destruct (sub_back_reads _ _ _ _ _ Q1 H1 E1) as [A1 B1]; [lia|]. destruct (sub_back_reads _ _ _ _ _ Q2 H2 E2) as [A2 B2]; [lia|].
    rewrite !Forall_app, <- (flat_map_shown item_read) by reflexivity. split.
    - intros ([T K] & K1 & K2 & K3). apply given_shown in K. destruct (A3 K K3) as (holes & u3 & Gv & R3 & W3). destruct (A1 K1) as (u1 & R1 & W1). destruct (A2 K2) as (u2 & R2 & W2).
      exists ((c + 1) :: u1 ++ u2 ++ u3). split.
      + eapply (rd_block G (c + 1) _ (map item_spec (shown (ab_content b))) holes _ u1 _ u2 _ u3 (ab_type b) E0); auto.
        * now apply shown_words.
        * cbn [raw bl_type bl_type_name]. now apply type_text_iff, type_back.
      + destruct W1 as [N1 R1'], W2 as [N2 R2'], W3 as [N3 R3']. split.
        * constructor.
          { rewrite !in_app_iff. intros [X|[X|X]]; [apply R1' in X|apply R2' in X|apply R3' in X]; lia. }
          apply NoDup_app_intro; auto; [apply NoDup_app_intro; auto|].
          { intros k X Y. apply R2' in X. apply R3' in Y. lia. }
          { intros k X Y. apply R1' in X. apply in_app_iff in Y as [Y|Y]; [apply R2' in Y|apply R3' in Y]; lia. }
        * intros k [<-|X]; [lia|]. rewrite !in_app_iff in X. destruct X as [X|[X|X]]; [apply R1' in X|apply R2' in X|apply R3' in X]; lia.
    - intros x u Rd. inversion Rd as [id pb ws holes s1 u1 s2 u2 items u3 ty Eg R1 R2 Wd Gv R3 T]. subst id u x.
      rewrite (Gf _ _ _ Eg E0) in *. apply shown_words in Wd; auto. subst ws. cbn [raw bl_sub_stack1 bl_sub_stack2 bl_type bl_type_name bl_parameters bl_color bl_op_code] in *.
      apply type_text_iff, type_back_inv in T as [T ->]. destruct (B3 _ _ _ Gv R3) as (-> & K & K3). apply (proj1 (given_shown _)) in K. apply B1 in R1 as [-> K1]. apply B2 in R2 as [-> K2].
      split; [reflexivity|]. rewrite !Forall_app. split; [split; auto|auto].
  Qed.
  (** a block that is read exactly if [gv] holds for it and for the blocks that it refers to *)
  Definition trips (b : ablock) : Prop := forall c last bs c', Forall (ref_ok gv G) (refs b) -> convert_block b c last = Ok (bs, c') -> emb G c bs -> c' < 2 ^ 31 ->
    (Forall gv (read_again b) -> exists u, reads_block G (c + 1) (block_back b) u /\ within c u c') /\
    (forall x u, reads_block G (c + 1) x u -> x = block_back b /\ Forall gv (read_again b)).
  (** a block below which there is nothing *)
  Lemma childless_parts y : childless y -> sub_last last_block (ab_sub_stack1 y) = None /\ sub_last last_block (ab_sub_stack2 y) = None /\ items_last last_block (ab_content y) = None.
  Proof. clear. unfold childless, below. rewrite !or_else_none. tauto. Qed.
  Lemma items_none items : items_last last_block items = None -> flat_map item_read items = [] /\ map item_back items = map item_alone items.
  Proof.
    induction items as [|i items IH]; cbn [items_last flat_map map]; [auto|]. rewrite or_else_none. intros [H Hi]. destruct (IH H) as [-> ->].
    destruct i as [t|[n v|n v|n v|n v]]; auto; destruct v as [t|b|k|]; auto; discriminate.
  Qed.
  Lemma childless_back y : childless y -> block_back y = block_alone y /\ read_again y = [y].
  Proof.
    intros C. apply childless_parts in C as (C1 & C2 & C3). unfold block_back, read_again, sub_back. rewrite C1, C2. apply items_none in C3 as [-> E]. split; [|reflexivity].
    unfold block_alone. f_equal. destruct (ab_content y); [reflexivity|exact E].
  Qed.
  Lemma trips_ref y : trips y -> ref_ok gv G y.
  Proof.
    intros P k pb C H E L. specialize (P k true [pb] (k + 1)). pose proof (childless_parts y C) as (C1 & C2 & C3). destruct (childless_back y C) as [Eb Er].
    destruct P as [A B]; auto.
    - unfold refs, sub_read. rewrite C1, C2. rewrite (proj1 (items_none _ C3)). constructor.
    - intros [|[|i]] q X; try discriminate. injection X as <-. now rewrite N.add_0_r.
    - rewrite Eb, Er in *. split.
      + intros F. destruct A as (u & R & W); [now constructor|]. inversion R as [id pb' ws holes s1 u1 s2 u2 items u3 ty Eg R1 R2 Wd Gv R3 T]. subst id u.
        destruct W as [N W]. assert (X : u1 ++ u2 ++ u3 = []).
        { destruct (u1 ++ u2 ++ u3) as [|j r] eqn:X; auto. inversion N as [|? ? N1 _]; subst. specialize (W j (or_intror (or_introl eq_refl))). destruct N1. left. lia. }
        rewrite X in R. unfold block_alone. exact R.
      + intros x u R. apply B in R as [-> F]. inversion F; auto.
  Qed.
  Lemma block_trip b c last bs c' : Forall trips (read_again b) ->
    convert_block b c last = Ok (bs, c') -> emb G c bs -> c' < 2 ^ 31 ->
    (Forall gv (read_again b) -> exists u, reads_block G (c + 1) (block_back b) u /\ within c u c') /\
    (forall x u, reads_block G (c + 1) x u -> x = block_back b /\ Forall gv (read_again b)).
  Proof.
    intros P. inversion P as [|? ? P1 P2]; subst. apply P1. eapply Forall_impl; [|exact P2]. apply trips_ref.
  Qed.
  Lemma stack_trip l : Forall (fun b => Forall trips (read_again b)) l -> l <> [] -> forall c bs c',
    conv_stack convert_block l c = Ok (bs, c') -> emb G c bs -> c' < 2 ^ 31 ->
    (Forall (fun b => Forall gv (read_again b)) l -> exists u, reads_stack G (c + 1) (map block_back l) u /\ within c u c') /\
    (forall l' u, reads_stack G (c + 1) l' u -> l' = map block_back l /\ Forall (fun b => Forall gv (read_again b)) l).
  Proof.
    intros F. induction F as [|b l K F IH]; [congruence|]. intros _ c bs c' H E L. cbn [conv_stack] in H.
    apply bind_ok in H as ([x c1] & H1 & H). apply bind_ok in H as ([y c2] & H2 & [= <- <-]).
    pose proof (all_numbered _ _ _ _ _ H1) as [[L1 _] _]. pose proof (conv_stack_le _ _ _ _ H2) as [L2 _]. apply (emb_app _ _ _ c1) in E as [Ex Ey]; [|lia].
    destruct (block_trip b c _ x c1 K H1 Ex) as [A B]; [lia|].
    assert (Nx : exists pb, G (c + 1) pb /\ bl_next_block pb = match l with [] => (-1)%Z | _ => Z.of_N (c1 + 1) end).
    { apply convert_block_inv in H1 as (ps & ba & ca & z1 & b1 & cb & z2 & b2 & _ & _ & _ & ->). apply emb_head in Ex as [Ex _].
      eexists. split; [exact Ex|]. cbn [raw bl_next_block]. destruct l as [|b' l]; [reflexivity|]. cbn [length Nat.eqb].
      apply stack_sized in H2. unfold blocks_size in H2. cbn [stack_size] in H2. destruct b'. cbn [block_size] in H2. unfold i32_of_u32. destruct (N.ltb_spec (c1 + 1) 2147483648); lia. }
    destruct Nx as (pb & Gp & Np). destruct l as [|b' l].
    - cbn in H2. injection H2 as <- <-. split.
      + intros Kg. inversion Kg as [|? ? Kb _]; subst. destruct (A Kb) as (u & R & W). exists u. split; [|auto]. eapply rd_last; eauto. lia.
      + intros l' u R. inversion R as [id pb' b2 v Eg Hn Rb|id pb' b2 v l2 w Eg Hn Rb Rs]; subst.
        * apply B in Rb as [-> ?]. auto.
        * rewrite (Gf _ _ _ Eg Gp) in Hn. lia.
    - destruct (IH ltac:(discriminate) _ _ _ H2 Ey L) as [A' B']. split.
      + intros Kg. inversion Kg as [|? ? Kb Kl]; subst. destruct (A Kb) as (u & R & W). destruct (A' Kl) as (v & R' & W'). exists (u ++ v).
        split; [|eapply within_app; [| |eauto|eauto]; lia]. cbn [map]. eapply rd_next; eauto; rewrite Np; [lia|]. now rewrite N2Z.id.
      + intros l' u R. inversion R as [id pb' b2 v Eg Hn Rb|id pb' b2 v l2 w Eg Hn Rb Rs]; subst.
        * rewrite (Gf _ _ _ Eg Gp) in Hn. lia.
        * rewrite (Gf _ _ _ Eg Gp) in Rs. rewrite Np, N2Z.id in Rs. apply B in Rb as [-> ?]. apply B' in Rs as [-> ?]. auto.
  Qed.
End Blocks.

Lemma plain_trips (G : N -> block -> Prop) b : (forall id x y, G id x -> G id y -> x = y) -> block_plain b -> trips G block_given b.
Proof.
  intros Gf P c last bs c' R H E L. destruct (block_back_reads G Gf block_given b c last bs c' P R H E L) as [A B].
  change (read_again b) with (b :: refs b). rewrite Forall_cons_iff. split; [exact A|]. intros x u X. apply B in X. rewrite Forall_cons_iff. exact X.
Qed.

(** ** Containers *)
Theorem back_iff_by gv l c : blocks_into l = Ok c -> 9 + N.of_nat (length c) < 2 ^ 31 -> Forall (fun b => Forall (trips (graph c) gv) (read_again b)) l ->
  forall l', blocks_try_from c = Ok l' <-> Forall (fun b => Forall gv (read_again b)) l /\ l' = map block_back l.
Proof.
  intros H L P l'. pose proof (into_stack _ _ H) as Hs. destruct (into_numbered _ _ H) as [Hn He]. pose proof (graph_emb _ _ Hn L) as E. rewrite try_from_iff.
  assert (Pn : Forall (fun b => parse_u32 (bl_id b) <> None) c).
  { apply Forall_forall. intros q Q. apply In_nth_error in Q as [j J]. rewrite (proj2 Hn _ _ J), parse_u32_dec; [discriminate|].
    assert (j < length c)%nat by (apply nth_error_Some; congruence). unfold U32MAX. lia. }
  destruct l as [|b l].
  - rewrite (proj2 He eq_refl) in *. split.
    + intros (u & [_ [(_ & -> & _)|(id & S & R)]] & _); [auto|]. destruct S as ([|? ?] & ? & ? & X & _); discriminate.
    + intros [_ ->]. exists []. split; [split; [constructor|left; auto]|constructor].
  - assert (Hc : c <> []) by (intros X; apply He in X; discriminate).
    destruct (stack_trip (graph c) (graph_fun c) gv (b :: l) P ltac:(discriminate) 9 _ _ Hs E L) as [A B]. split.
    + intros (u & [_ [(X & _)|(id & S & R)]] & _); [congruence|]. apply (start_numbered _ _ Hn L Hc) in S. subst id. apply B in R as [-> ?]. auto.
    + intros [K ->]. destruct (A K) as (u & R & [Nu _]). exists u. split; [|auto]. split; [auto|]. right. exists 10. split; [|exact R]. now apply (start_numbered _ _ Hn L).
Qed.
Theorem back_iff l c : blocks_into l = Ok c -> 9 + N.of_nat (length c) < 2 ^ 31 -> Forall (fun b => Forall block_plain (read_again b)) l ->
  forall l', blocks_try_from c = Ok l' <-> Forall (fun b => Forall block_given (read_again b)) l /\ l' = map block_back l.
Proof.
  intros H L P. apply back_iff_by; auto. eapply Forall_impl; [|exact P]. intros b. apply Forall_impl. intros y. apply plain_trips, graph_fun.
Qed.

(** ** What has come back stays *)
Lemma leaf_childless y : leaf y -> childless y /\ block_alone y = y.
Proof.
  intros (H1 & H2 & _ & Hn & F). destruct y as [s1 s2 col op items ty]. cbn [ab_sub_stack1 ab_sub_stack2 ab_content] in *. subst s1 s2.
  assert (X : items_last last_block items = None /\ map item_alone items = items).
  { clear Hn. induction F as [|[t|a] items Hi F [IH1 IH2]]; [auto|..]; cbn [items_last map]; rewrite IH1, IH2; cbn [or_else]; [auto|]. destruct Hi as [_ Hi].
    destruct a as [n v|n v|n v|n v]; destruct v as [t|b|k|]; cbn in Hi; try tauto; auto. }
  destruct X as [X1 X2]. split; [exact X1|]. unfold block_alone. cbn [ab_color ab_op_code ab_content ab_type]. f_equal. destruct items; [congruence|exact X2].
Qed.
Lemma leaf_last y : leaf y -> last_block y = y /\ block_alone y = y.
Proof. intros L. apply leaf_childless in L as [C E]. split; [|exact E]. rewrite last_block_below. unfold childless in C. now rewrite C. Qed.
Lemma kept_block_back b : kept b -> block_back b = b.
Proof.
  intros (K1 & K2 & _ & Hn & F). destruct b as [s1 s2 col op items ty]. unfold block_back. cbn [ab_sub_stack1 ab_sub_stack2 ab_content ab_color ab_op_code ab_type] in *.
  assert (S : forall s, kept_stack s -> sub_back s = s).
  { intros s [->|(y & -> & L)]; [reflexivity|]. apply leaf_last in L as [E1 E2]. unfold sub_back. cbn [sub_last stack_last or_else option_map]. now rewrite E1, E2. }
  rewrite !S by auto. f_equal. destruct items as [|i0 items0]; [congruence|]. cbn [shown]. revert F. generalize (i0 :: items0). clear. intros items F.
  induction F as [|[t|a] items Hi F IH]; [auto|..]; cbn [map]; rewrite IH; [reflexivity|]. destruct Hi as [_ Hi]. f_equal.
  destruct a as [n v|n v|n v|n v]; destruct v as [t|b|k|]; cbn [kept_value plain_value] in Hi; try tauto; cbn [item_back item_alone]; auto.
  - apply leaf_last in Hi as [E1 E2]. now rewrite E1, E2.
  - apply leaf_last in Hi as [E1 E2]. now rewrite E1, E2.
  - destruct Hi as (Hi & O1 & O2). apply leaf_last in Hi as [E1 E2]. rewrite E1, E2. cbv zeta.
    destruct (str_eqb (ab_op_code b) (lit "true")) eqn:X1; [apply str_eqb_eq in X1; congruence|].
    destruct (str_eqb (ab_op_code b) (lit "false")) eqn:X2; [apply str_eqb_eq in X2; congruence|reflexivity].
Qed.
Lemma shown_nonempty items : shown items <> [].
Proof. destruct items; discriminate. Qed.
Lemma alone_leaf y : childless y -> block_plain y -> block_given y -> ~ Exists has_hole (ab_content y) -> leaf (block_alone y).
Proof.
  intros C P [T K] NH. apply childless_parts in C as (_ & _ & C). repeat (split; [reflexivity|]). split; [exact T|]. split; [cbn; intros X; apply map_eq_nil in X; now apply shown_nonempty in X|].
  cbn [block_alone ab_content]. unfold block_plain in P. apply plain_shown in P. apply given_shown in K.
  assert (C' : items_last last_block (shown (ab_content y)) = None) by (destruct (ab_content y); auto).
  assert (NH' : ~ Exists has_hole (shown (ab_content y))) by (destruct (ab_content y); auto; intros X; inversion X; subst; [tauto|]; auto).
  revert P K C' NH'. generalize (shown (ab_content y)). clear. intros items P. induction P as [|[t|a] items Hi P IH]; cbn [map items_last]; intros K C NH; [constructor|..];
    apply Forall_cons_iff in K as [Ki K]; apply or_else_none in C as [C Ci]; (constructor; [|apply IH; auto]).
  - exact Hi.
  - destruct Hi as [N Hi]. assert (Na : ~ has_hole (SParam a)) by auto. destruct a as [n v|n v|n v|n v]; destruct v as [t|b|k|]; cbn in Ki, Ci, Na |- *; try tauto; try discriminate; (split; [exact N|]); auto; discriminate.
Qed.
Definition whole_last (b : ablock) : Prop := no_holes b -> childless (last_block b) /\ no_holes (last_block b).
Lemma stack_whole l y : stack_all whole_last l -> stack_all no_holes l -> stack_last last_block l = Some y -> childless y /\ no_holes y.
Proof.
  induction l as [|b l IH]; cbn [stack_all stack_last]; [discriminate|]. intros [Q1 Q] [H1 H] E. destruct (stack_last last_block l); cbn [or_else] in E; injection E as <-; auto.
Qed.
Lemma sub_whole s y : sub_all whole_last s -> sub_all no_holes s -> sub_last last_block s = Some y -> childless y /\ no_holes y.
Proof. destruct s as [l|]; [|discriminate]. apply stack_whole. Qed.
Lemma boolean_whole t : childless (boolean_block t) /\ no_holes (boolean_block t).
Proof. destruct t; (split; [reflexivity|]); cbn; repeat split; constructor; auto. Qed.
Lemma item_whole i y : item_all whole_last i -> item_all no_holes i -> item_last last_block i = Some y -> childless y /\ no_holes y.
Proof.
  destruct i as [t|[n v|n v|n v|n v]]; cbn [item_all item_last]; [discriminate|..]; destruct v as [t|b|k|]; cbn [value_all value_last]; intros Q H E; try discriminate; injection E as <-; auto.
  apply boolean_whole.
Qed.
Lemma items_whole items y : items_all whole_last items -> items_all no_holes items -> items_last last_block items = Some y -> childless y /\ no_holes y.
Proof.
  induction items as [|i l IH]; cbn [items_all items_last]; [discriminate|]. intros [Q1 Q] [H1 H] E. destruct (items_last last_block l); cbn [or_else] in E; [injection E as <-; auto|]. eapply item_whole; eauto.
Qed.
Lemma all_whole b : whole_last b.
Proof.
  induction b as [s1 s2 col op items ty Q1 Q2 Q] using ablock_induct. intros H. pose proof H as (_ & Hi & H1 & H2). rewrite last_block_below.
  destruct (below last_block (MkBlock s1 s2 col op items ty)) as [y|] eqn:E; [|split; [exact E|exact H]].
  unfold below in E. cbn [ab_sub_stack1 ab_sub_stack2 ab_content] in E. destruct (sub_last last_block s2) eqn:E2; cbn [or_else] in E; [injection E as <-; now apply (sub_whole s2)|].
  destruct (sub_last last_block s1) eqn:E1; cbn [or_else] in E; [injection E as <-; now apply (sub_whole s1)|]. now apply (items_whole items).
Qed.
Lemma last_leaf y : childless y -> no_holes y -> block_plain y -> block_given y -> leaf (block_alone y).
Proof.
  intros C H P K. apply alone_leaf; auto. destruct y as [s1 s2 col op items ty]. cbn [no_holes ab_content] in *. destruct H as [H _]. rewrite Exists_exists. intros (i & Ii & Hh).
  rewrite Forall_forall in H. now apply (H i).
Qed.
Lemma back_kept b : no_holes b -> Forall block_plain (read_again b) -> Forall block_given (read_again b) -> kept (block_back b).
Proof.
  intros H P K. unfold read_again in P, K. rewrite Forall_cons_iff, !Forall_app in P, K. destruct P as (P0 & P1 & P2 & P3), K as (K0 & K1 & K2 & K3).
  destruct b as [s1 s2 col op items ty]. cbn [ab_sub_stack1 ab_sub_stack2 ab_content] in *. pose proof H as (Hh & Hi & H1 & H2).
  assert (S : forall s, sub_all no_holes s -> Forall block_plain (listed (sub_last last_block s)) -> Forall block_given (listed (sub_last last_block s)) -> kept_stack (sub_back s)).
  { intros s Hs Ps Ks. unfold sub_back. destruct (sub_last last_block s) as [y|] eqn:E; cbn [listed option_map] in *; [|now left]. right. exists (block_alone y). split; [reflexivity|].
    destruct (sub_whole s y) as [C N]; auto. { destruct s; [apply stack_all_intro, all_whole|exact I]. } apply last_leaf; auto; eapply Forall_inv; eauto. }
  unfold block_back, kept. cbn [ab_sub_stack1 ab_sub_stack2 ab_content ab_color ab_op_code ab_type].
  split; [now apply S|]. split; [now apply S|]. split; [apply K0|]. split; [intros X; apply map_eq_nil in X; now apply shown_nonempty in X|].
  unfold block_plain in P0. destruct K0 as [_ K0]. cbn [ab_content] in P0, K0. apply plain_shown in P0. apply given_shown in K0. rewrite <- (flat_map_shown item_read) in P3, K3 by reflexivity.
  assert (Hh' : Forall (fun i => ~ has_hole i) (shown items)) by (destruct items; [constructor; [intros []|constructor]|auto]).
  assert (Hi' : items_all no_holes (shown items)) by (destruct items; [cbn; auto|auto]).
  revert P0 K0 P3 K3 Hh' Hi'. generalize (shown items). clear. intros items P0. induction P0 as [|i items P0 Pl IH]; cbn [map flat_map items_all]; intros K0 P3 K3 Hh Hi; [constructor|].
  apply Forall_cons_iff in K0 as [Ki K0]. apply Forall_cons_iff in Hh as [Hhi Hh]. destruct Hi as [Hi0 Hi]. rewrite Forall_app in P3, K3. destruct P3 as [Pi P3], K3 as [Kr K3]. constructor; [|now apply IH].
  clear IH. destruct i as [t|a]; [exact P0|]. destruct P0 as [N P0].
  assert (Lf : forall b, no_holes b -> item_read (SParam a) = [last_block b] -> leaf (block_alone (last_block b))).
  { intros b Hb E. rewrite E in *. destruct (all_whole b Hb) as [C Nh]. apply last_leaf; auto; eapply Forall_inv; eauto. }
  destruct a as [n v|n v|n v|n v]; destruct v as [t|b|k|]; cbn [item_given has_hole hole item_back item_alone arg_name kept_value plain_value item_all value_all] in *; try tauto; (split; [exact N|]); auto.
  - discriminate.
  - specialize (Lf b Hi0 eq_refl). cbv zeta. destruct (str_eqb (ab_op_code (last_block b)) (lit "true")) eqn:X1; [exact I|]. destruct (str_eqb (ab_op_code (last_block b)) (lit "false")) eqn:X2; [exact I|].
    split; [exact Lf|]. split; intros X; change (ab_op_code (block_alone (last_block b))) with (ab_op_code (last_block b)) in X; apply str_eqb_eq in X; congruence.
Qed.

(** ** Reading does not panic *)
Lemma named_not_bad i : item_named i -> ~ bad_word (item_spec i).
Proof.
  intros H B. destruct i as [t|a].
  - destruct H as [_ H]. apply H. cbn [item_spec] in B. destruct B as [B|[(r & B & _)|(c & r & B & _)]]; rewrite B; now eexists.
  - cbn [item_named item_spec] in *. pose proof (proj2 (param_spec a H)) as W.
    assert (X : exists l n, In l ["s"; "b"; "d"; "m"]%string /\ param_word (arg_spec a) l n /\ (l = "m"%string -> exists m, n = Some m)).
    { destruct a as [n v|n v|n v|n v]; do 2 eexists; (split; [|split; [exact W|]]); cbn; auto; try discriminate; eauto. }
    destruct X as (l & n & Hl & (r & E & Hr) & Hm). rewrite E in B. destruct B as [X|[(r' & X & Hn)|(c & r' & X & Hc)]].
    + destruct Hl as [<-|[<-|[<-|[<-|[]]]]]; discriminate.
    + destruct Hl as [<-|[<-|[<-|[<-|[]]]]]; try discriminate. injection X as <-. destruct (Hm eq_refl) as [m ->]. destruct Hr as [Hr ->]. now apply (Hn m).
    + destruct Hl as [<-|[<-|[<-|[<-|[]]]]]; injection X as <- _; lia.
Qed.
Section Panic.
  Context (G : N -> block -> Prop) (Gf : forall id x y, G id x -> G id y -> x = y).
  Definition safe (id : N) : Prop := forall u, ~ fails_block G u id None.
  Lemma items_panic holes : forall u, fails_items G u holes None -> exists a id, In (SParam a) holes /\ refers a id /\ ~ safe id.
  Proof.
    induction holes as [|i holes IH]; intros u H; inversion H as [u' t h o Hf|u' a h id o Rf Hf|u' a b v h o Ra Un Hf]; subst.
    - apply IH in Hf as (a & id & I & R & B). exists a, id. split; [now right|auto].
    - destruct o; [discriminate|]. exists a, id. split; [now left|]. split; [auto|]. intros Sf. now apply (Sf u).
    - apply IH in Hf as (a' & id & I & R & B). exists a', id. split; [now right|auto].
  Qed.
  Definition ref_safe (y : ablock) : Prop := forall k pb, childless y -> convert_block y k true = Ok ([pb], k + 1) -> G (k + 1) pb -> k + 1 < 2 ^ 31 -> safe (k + 1).
  Lemma tail_safe y c bs c' : ref_safe y -> tail_is y bs c' -> emb G c bs -> c' = c + N.of_nat (length bs) -> c' < 2 ^ 31 -> safe c'.
  Proof.
    intros R (pre & pb & -> & C & P & H) E Ec L. apply emb_last with (c' := c') in E; auto.
    specialize (R (c' - 1) pb C). replace (c' - 1 + 1) with c' in R by lia. now apply R.
  Qed.
  Lemma holes_safe items : Forall item_plain items -> Forall ref_safe (flat_map item_read items) -> items_last last_block items = None \/ (forall t, ref_safe (boolean_block t)) -> forall c ps bs c',
    conv_args convert_block items c = Ok (ps, bs, c') -> emb G c bs -> c' < 2 ^ 31 -> forall holes, gives (map item_spec items) ps holes ->
    forall a id, In (SParam a) holes -> refers a id -> safe id.
  Proof.
    intros F. induction F as [|[t|a0] items Hi F IH]; cbn [conv_args map item_spec flat_map items_last]; rewrite ?or_else_none; intros R Rb c ps bs c' H E L holes Gv a id Ia Ra.
    - injection H as <- <- <-. inversion Gv; subst. destruct Ia.
    - inversion Gv as [|t' ts args is P Gv'|? ? ? ? ? ? ? P|? ? ? ? ? ? ? P|? ? ? ? ? ? ? P|? ? ? ? ? ? P]; subst.
      2-5: destruct P as (r & -> & _); destruct Hi as [_ Hi]; destruct Hi; now eexists.
      destruct Ia as [Ia|Ia]; [discriminate|]. eapply (IH R); eauto. tauto.
    - rewrite Forall_app in R. destruct R as [Rr R]. apply bind_ok in H as ([[p x] c1] & Ha & H). apply bind_ok in H as ([[ps' y] c2] & H & [= <- <- <-]).
      pose proof (conv_args_le _ _ _ _ _ H) as [L2 _]. pose proof (conv_arg_le _ _ _ _ _ Ha) as [L1 _].
      apply (emb_app G c x c1 y) in E as [Ex Ey]; [|lia]. assert (Lx : c1 < 2 ^ 31) by lia.
      pose proof (proj2 (param_spec a0 (proj1 Hi))) as Wd.
      assert (Hp : is_param (arg_spec a0)) by (destruct a0; destruct Wd as (r & -> & _); now eexists).
      pose proof (gives_given a0 c p x c1 _ _ _ Hi Ha Gv) as K1.
      destruct (gives_tail a0 _ _ _ _ Hp Gv) as (h & hs & -> & Gv'). pose proof (gives_here a0 c p x c1 _ _ _ Hi K1 Ha Lx Gv') as Gv''.
      apply (gives_fun _ _ _ _ Gv) in Gv''. injection Gv'' as ->. destruct Ia as [Ia|Ia]; [|eapply (IH R); eauto; tauto]. injection Ia as <-.
      pose proof (arg_tail _ _ _ _ _ (item_all_intro _ (SParam a0) all_tails) Ha) as T.
      destruct a0 as [n v|n v|n v|n v]; destruct v as [t|b|k|]; cbn [conv_arg conv_value] in Ha; try discriminate; cbn [arg_hole hole_at item_last value_last item_read] in *;
        destruct Ra as [(m & Em)|[(m & Em)|(m & Em)]]; try discriminate; injection Em as _ <-; destruct T as [T _].
      + eapply tail_safe; eauto. eapply Forall_inv; eauto.
      + eapply tail_safe; eauto. eapply Forall_inv; eauto.
      + destruct Rb as [[_ Rb]|Rb]; [discriminate|]. eapply tail_safe; eauto.
      + eapply tail_safe; eauto. eapply Forall_inv; eauto.
  Qed.
  Lemma sub_safe s c z bs c' : Forall ref_safe (sub_read s) -> sub_ptr s c z bs c' -> emb G c bs -> c' < 2 ^ 31 -> (0 <= z)%Z -> forall u, ~ fails_stack G u (Z.to_N z) None.
  Proof.
    intros R H E L Hz u Hf. pose proof (sub_ptr_le _ _ _ _ _ H) as [Lc _]. assert (Q : sub_all conv_tail s) by (destruct s; [apply stack_all_intro, all_tails|exact I]). apply (sub_tail _ _ _ _ _ Q) in H.
    unfold sub_read in R. destruct (sub_last last_block s) as [y|]; [|lia]. destruct H as [T ->]. rewrite N2Z.id in Hf. pose proof (Forall_inv R) as R1.
    pose proof T as T'. destruct T' as (pre & pb & -> & C & P & Hc). pose proof E as E0. apply emb_last with (c' := c') in E0; auto.
    assert (Np : bl_next_block pb = (-1)%Z). { apply convert_block_inv in Hc as (ps & ba & c1 & z1 & b1 & c2 & z2 & b2 & _ & _ & _ & [= -> _]). reflexivity. }
    inversion Hf as [u' id o Hb|u' id pb' b v o Eg Hn Rb Un Hs]; subst u' id o; [now apply (tail_safe _ _ _ _ R1 T E Lc L) in Hb|]. rewrite (Gf _ _ _ Eg E0) in Hn. lia.
  Qed.
  Lemma block_safe b c last bs c' : block_plain b -> Forall ref_safe (sub_read (ab_sub_stack1 b) ++ sub_read (ab_sub_stack2 b) ++ flat_map item_read (ab_content b)) ->
    (items_last last_block (ab_content b) = None \/ forall t, ref_safe (boolean_block t)) ->
    convert_block b c last = Ok (bs, c') -> emb G c bs -> c' < 2 ^ 31 -> safe (c + 1).
  Proof.
    intros P R Hb H E L u Hf. apply convert_block_inv in H as (ps & ba & c1 & z1 & b1 & c2 & z2 & b2 & Ha & H1 & H2 & ->). rewrite !Forall_app in R. destruct R as (Q1 & Q2 & Q3).
    pose proof (conv_args_le _ _ _ _ _ Ha) as [La _]. pose proof (sub_ptr_le _ _ _ _ _ H1) as [L1 _]. pose proof (sub_ptr_le _ _ _ _ _ H2) as [L2 _].
    apply emb_head in E as [E0 E]. apply (emb_app _ _ _ c1) in E as [Ea E]; [|lia]. apply (emb_app _ _ _ c2) in E as [E1 E2]; [|lia].
    rewrite <- conv_args_shown in Ha. rewrite <- (flat_map_shown item_read) in Q3 by reflexivity.
    inversion Hf as [|u' id pb o Eg Un Hz Hs|u' id pb s1 u1 o Eg R1 Un Hz Hs|u' id pb s1 u1 s2 u2 ws o Eg R1 R2 Un Wd Cf|u' id pb s1 u1 s2 u2 ws holes o Eg R1 R2 Un Wd Gv Fi|]; subst u' id;
      (destruct o; [discriminate|]); rewrite (Gf _ _ _ Eg E0) in *; cbn [raw bl_sub_stack1 bl_sub_stack2 bl_parameters] in *.
    - eapply (sub_safe _ _ _ _ _ Q1 H1 E1); eauto. lia.
    - eapply (sub_safe _ _ _ _ _ Q2 H2 E2); eauto.
    - apply shown_words in Wd; auto. subst ws. destruct Cf as (before & t & after & used & rest & is & Ew & _ & _ & _ & Wf). inversion Wf as [t' args B| | | | |]; subst.
      assert (It : In t (map item_spec (shown (ab_content b)))) by (rewrite Ew, in_app_iff; right; now left). apply in_map_iff in It as (i & <- & Ii).
      revert B. apply named_not_bad. apply plain_shown, item_plain_named in P. rewrite Forall_forall in P. now apply P.
    - apply shown_words in Wd; auto. subst ws. apply items_panic in Fi as (a & id & Ia & Ra & Ns). apply Ns.
      eapply (holes_safe _ (plain_shown _ P) Q3); [|exact Ha|exact Ea|lia|exact Gv|exact Ia|exact Ra]. destruct Hb as [Hb|Hb]; [left|now right]. destruct (ab_content b); auto.
  Qed.
  Lemma plain_safe y : block_plain y -> ref_safe y.
  Proof.
    intros P k pb C H E L. pose proof (childless_parts y C) as (C1 & C2 & C3). eapply (block_safe y k true [pb] (k + 1)); eauto.
    - unfold sub_read. rewrite C1, C2. rewrite (proj1 (items_none _ C3)). constructor.
    - intros [|[|i]] q X; try discriminate. injection X as <-. now rewrite N.add_0_r.
  Qed.
  Lemma boolean_plain t : block_plain (boolean_block t).
  Proof.
    constructor; [|constructor]. split; [destruct t; intros X; vm_compute in X; intuition discriminate|]. intros [r X]. destruct t; vm_compute in X; discriminate.
  Qed.
  Lemma stack_safe l : Forall (fun b => Forall block_plain (read_again b)) l -> l <> [] -> forall c bs c',
    conv_stack convert_block l c = Ok (bs, c') -> emb G c bs -> c' < 2 ^ 31 -> forall u, ~ fails_stack G u (c + 1) None.
  Proof.
    intros F. induction F as [|b l K F IH]; [congruence|]. intros _ c bs c' H E L u Hf. cbn [conv_stack] in H.
    apply bind_ok in H as ([x c1] & H1 & H). apply bind_ok in H as ([y c2] & H2 & [= <- <-]).
    pose proof (all_numbered _ _ _ _ _ H1) as [[L1 _] _]. pose proof (conv_stack_le _ _ _ _ H2) as [L2 _]. apply (emb_app _ _ _ c1) in E as [Ex Ey]; [|lia].
    inversion Hf as [u' id o Hb|u' id pb' b0 v o Eg Hn Rb Un Hs]; subst u' id o.
    - revert Hb. unfold read_again in K. apply Forall_cons_iff in K as [K0 K]. eapply (block_safe b c); eauto; [|right; intros t; apply plain_safe, boolean_plain|lia].
      eapply Forall_impl; [|exact K]. apply plain_safe.
    - apply convert_block_inv in H1 as (ps & ba & ca & z1 & b1 & cb & z2 & b2 & _ & _ & _ & ->). apply emb_head in Ex as [Ex _].
      rewrite (Gf _ _ _ Eg Ex) in *. cbn [raw bl_next_block] in *. destruct l as [|b' l]; [cbn in Hn; lia|]. cbn [length Nat.eqb] in *.
      replace (Z.to_N (i32_of_u32 (c1 + 1))) with (c1 + 1) in Hs; [eapply IH; eauto; discriminate|].
      apply stack_sized in H2. unfold blocks_size in H2. cbn [stack_size] in H2. destruct b'. cbn [block_size] in H2. unfold i32_of_u32. destruct (N.ltb_spec (c1 + 1) 2147483648); lia.
  Qed.
End Panic.
Theorem back_safe l c : blocks_into l = Ok c -> 9 + N.of_nat (length c) < 2 ^ 31 -> Forall (fun b => Forall block_plain (read_again b)) l -> blocks_try_from c <> Panic.
Proof.
  intros H L P X. pose proof (into_stack _ _ H) as Hs. destruct (into_numbered _ _ H) as [Hn He]. pose proof (graph_emb _ _ Hn L) as E.
  apply (try_from_fails c None) in X as [(before & b & after & _ & _ & _ & X)|(_ & id & S & Hf)]; [discriminate|].
  assert (Hc : c <> []) by (intros ->; destruct S as ([|? ?] & ? & ? & Y & _); discriminate). apply (start_numbered _ _ Hn L Hc) in S. subst id.
  assert (Hl : l <> []) by (intros ->; now apply Hc, He). exact (stack_safe (graph c) (graph_fun c) l P Hl 9 _ _ Hs E L [] Hf).
Qed.
