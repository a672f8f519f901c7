(** Proofs about failing to read specs and containers of blocks *)
From Verif Require Import Base Spec Str Dec Flt M_Color M_Logic A_Block SpecNumber SpecBlock NumberStdProofs LogicMapProofs BlockContentProofs BlockProofs BlockReadProofs.
From Coq Require Import ZifyNat ZifyN ZifyBool.

(** ** Specs *)
Definition outcome {E A} (o : option E) : res E A := match o with Some e => Err e | None => Panic end.
Lemma bad_word_token' t : bad_word t <-> bad_token t.
Proof.
  unfold bad_word, bad_token. split; (intros [H|[(r & -> & H)|H]]; [now left|right; left|right; right; exact H]); exists r.
  - split; [reflexivity|]. now apply (name_of_iff r None).
  - split; [reflexivity|]. now apply (name_of_iff r None).
Qed.
Lemma param_letter t l n : In l ["s"; "b"; "d"; "m"]%string -> param_word t l n -> exists c r, lit l = [c] /\ t = 37 :: c :: r /\ name_of r = n /\ In c (lit "sbdm").
Proof.
  intros [<-|[<-|[<-|[<-|[]]]]] H; unfold param_word in H; destruct H as (r & -> & H); apply name_of_iff in H;
    (eexists _, r; split; [reflexivity|]; split; [reflexivity|]; split; [exact H|]); cbn; auto.
Qed.
Lemma value_or_block_err {T} (f : str -> res content_error T) a e : @value_or_block ablock T f a = Err e <->
  (exists r, a = 64 :: r /\ parse_u32 r = None /\ e = CeInvalidBlockId a) \/ ((forall r, a <> 64 :: r) /\ f a = Err e).
Proof.
  unfold value_or_block. rewrite starts_at. destruct a as [|c r].
  - split; [|intros [(r & [=] & _)|(_ & ->)]; reflexivity]. intros H. right. split; [discriminate|]. destruct (f []); cbn in H; congruence.
  - destruct (N.eqb_spec c AT) as [->|Hc].
    + cbn [bdrop]. change (u8len AT <=? 1)%nat with true. cbv iota. change (1 - u8len AT)%nat with 0%nat.
      assert (E0 : bdrop 0 r = Some r) by (destruct r; reflexivity). rewrite E0. cbn [unwrap bind]. split.
      * destruct (parse_u32 r) eqn:P; cbn; [discriminate|]. intros [= <-]. left. now exists r.
      * intros [(r' & [= <-] & -> & ->)|(K & _)]; [reflexivity|]. now destruct (K r).
    + split.
      * intros H. right. split; [intros r' [= -> _]; now apply Hc|]. destruct (f (c :: r)); cbn in H; congruence.
      * intros [(r' & [= -> _] & _)|(_ & ->)]; [now contradiction Hc|reflexivity].
Qed.
Lemma take_cases {A} (args : list str) (k : str * list str -> res content_error A) :
  bind (take_arg args) k = match args with [] => Err CeRanOutOfArgs | a :: r => k (a, r) end.
Proof. now destruct args. Qed.
Lemma word_cases t : is_param t -> bad_word t \/ (~ bad_word t /\ exists c r, t = 37 :: c :: r /\ exists n, spec_name t = Ok n /\
  (In c (lit "sbdm") -> n = name_of r) /\ (c = 109 -> name_of r <> None)).
Proof.
  intros [s ->]. destruct s as [|c r]; [left; now left|].
  destruct (spec_name_cases (37 :: c :: r)) as [P|(n & P)].
  - left. apply spec_name_panic in P as (n & -> & H). right; right. exists c, n. auto.
  - destruct (N.eq_dec c 109) as [->|C].
    + destruct (name_of r) as [m|] eqn:M.
      * right. split.
        -- intros B. apply bad_word_token' in B. destruct B as [B|[(r' & B & H)|(c' & r' & B & H)]]; [discriminate|injection B as <-; congruence|].
           injection B as <- _. lia.
        -- exists 109, r. split; [reflexivity|]. exists n. split; [exact P|]. pose proof (spec_name_ascii 109 r ltac:(lia)) as Q. change CH_PERCENT with 37 in Q. rewrite Q in P. split; [congruence|]. intros _. congruence.
      * left. apply bad_word_token'. right; left. eauto.
    + right. split.
      * intros B. apply bad_word_token' in B. destruct B as [B|[(r' & B & H)|(c' & r' & B & H)]]; [discriminate|congruence|].
        injection B as <- ->. assert (spec_name (37 :: c :: CH_DOT :: r') = Panic) by (apply spec_name_panic; eauto). congruence.
      * exists c, r. split; [reflexivity|]. exists n. split; [exact P|]. split; [|congruence]. intros I.
        assert (c < 128) by (cbn in I; lia). pose proof (spec_name_ascii c r ltac:(lia)) as Q. change CH_PERCENT with 37 in Q. rewrite Q in P. congruence.
Qed.
Lemma param_of c r l : lit l = [c] -> param_word (37 :: c :: r) l (name_of r).
Proof. intros L. apply (param_word_iff _ _ c); [exact L|]. now exists r. Qed.
Lemma boolean_err a e : boolean_arg a = Err e <-> (forall b, ~ boolean_text a b) /\ e = CeInvalidBooleanArgument a.
Proof.
  split.
  - intros H. split; [intros b B; apply boolean_arg_iff in B; congruence|]. unfold boolean_arg in H. destruct (parse_bool a); cbn in H; congruence.
  - intros [H ->]. destruct (boolean_arg a) as [b|x|] eqn:E.
    + apply boolean_arg_iff in E. now apply H in E.
    + unfold boolean_arg in E. destruct (parse_bool a); cbn in E; congruence.
    + unfold boolean_arg in E. destruct (parse_bool a); discriminate.
Qed.
Lemma number_err a e : number_arg a = Err e <-> (forall x, ~ number_text a x) /\ e = CeInvalidNumberArgument a.
Proof.
  split.
  - intros H. split; [intros b B; apply number_arg_iff in B; congruence|]. unfold number_arg in H. destruct (parse_f64 a); cbn in H; congruence.
  - intros [H ->]. destruct (number_arg a) as [b|x|] eqn:E.
    + apply number_arg_iff in E. now apply H in E.
    + unfold number_arg in E. destruct (parse_f64 a); cbn in E; congruence.
    + unfold number_arg in E. destruct (parse_f64 a); discriminate.
Qed.
Lemma word_fails_iff t args o : is_param t -> @token_parse ablock t args = outcome o <-> word_fails t args o.
Proof.
  intros P. destruct (word_cases t P) as [B|(NB & c & r & -> & n & S & SN & SM)].
  - pose proof (proj1 (bad_word_token' t) B) as T. destruct (bad_token_panics (B := ablock) t args T) as [-> _]. split.
    + intros H. destruct o; [discriminate|]. now constructor.
    + intros H. destruct H as [|c r args I NB|t l n I W NB|t l n r args I W _|t n a args W _ _|t n a args W _ _]; [reflexivity|contradiction|contradiction| | |].
      all: exfalso; destruct T as [->|[(r' & -> & H)|(c' & r' & -> & H)]].
      all: try (destruct W as (z & W & _); try destruct I as [<-|[<-|[<-|[]]]]; discriminate W).
      all: try (destruct W as (z & W & _); try destruct I as [<-|[<-|[<-|[]]]]; injection W as W _; cbn in W; lia).
  - unfold token_parse. rewrite S. cbn [bind nth_error unwrap].
    assert (D : forall l n', In l ["s"; "b"; "d"; "m"]%string -> param_word (37 :: c :: r) l n' -> lit l = [c] /\ n' = name_of r).
    { intros l n' I W. apply param_letter in W as (c' & r' & L & E & N & _); [|exact I]. injection E as <- <-. auto. }
    destruct (N.eqb_spec c 115) as [->|C1]; [|destruct (N.eqb_spec c 98) as [->|C2]; [|destruct (N.eqb_spec c 100) as [->|C3]; [|destruct (N.eqb_spec c 109) as [->|C4]]]].
    + rewrite take_cases. pose proof (param_of 115 r "s" eq_refl) as W. destruct args as [|a args].
      * split; [intros H; destruct o; [injection H as <-|discriminate]; eapply wf_no_argument; eauto; cbn; auto|].
        intros H. inversion H; subst; try contradiction; try reflexivity. exfalso. now apply H2; cbn; auto.
      * split.
        -- intros H. destruct (value_or_block Ok a) as [v|e|] eqn:V; cbn [bind] in H.
           ++ destruct o; discriminate.
           ++ destruct o as [e'|]; [|discriminate]. injection H as <-. apply value_or_block_err in V as [(r' & -> & X & ->)|(_ & X)]; [|discriminate].
              eapply wf_reference; eauto. cbn; auto.
           ++ exfalso. revert V. apply value_or_block_nopanic. discriminate.
        -- intros H. inversion H; subst; try contradiction.
           ++ exfalso. apply H2. cbn; auto.
           ++ assert (V : @value_or_block ablock str Ok (64 :: r0) = Err (CeInvalidBlockId (64 :: r0))) by (apply value_or_block_err; left; eauto). now rewrite V.
           ++ match goal with Q : param_word _ "b"%string _ |- _ => apply D in Q as [X _]; [discriminate X|cbn; auto] end.
           ++ match goal with Q : param_word _ "d"%string _ |- _ => apply D in Q as [X _]; [discriminate X|cbn; auto] end.
    + rewrite take_cases. pose proof (param_of 98 r "b" eq_refl) as W. destruct args as [|a args].
      * split; [intros H; destruct o; [injection H as <-|discriminate]; eapply wf_no_argument; eauto; cbn; auto|].
        intros H. inversion H; subst; try contradiction; try reflexivity. exfalso. now apply H2; cbn; auto.
      * split.
        -- intros H. destruct (value_or_block boolean_arg a) as [v|e|] eqn:V; cbn [bind] in H.
           ++ destruct o; discriminate.
           ++ destruct o as [e'|]; [|discriminate]. injection H as <-. apply value_or_block_err in V as [(r' & -> & X & ->)|(Z & X)].
              ** eapply wf_reference; eauto. cbn; auto.
              ** apply boolean_err in X as [X ->]. eapply wf_boolean; eauto.
           ++ exfalso. revert V. apply value_or_block_nopanic. intros x. unfold boolean_arg. destruct (parse_bool x); discriminate.
        -- intros H. inversion H; subst; try contradiction.
           ++ exfalso. apply H2. cbn; auto.
           ++ assert (V : @value_or_block ablock bool boolean_arg (64 :: r0) = Err (CeInvalidBlockId (64 :: r0))) by (apply value_or_block_err; left; eauto). now rewrite V.
           ++ assert (V : @value_or_block ablock bool boolean_arg a = Err (CeInvalidBooleanArgument a)) by (apply value_or_block_err; right; split; auto; apply boolean_err; auto). now rewrite V.
           ++ match goal with Q : param_word _ "d"%string _ |- _ => apply D in Q as [X _]; [discriminate X|cbn; auto] end.
    + rewrite take_cases. pose proof (param_of 100 r "d" eq_refl) as W. destruct args as [|a args].
      * split; [intros H; destruct o; [injection H as <-|discriminate]; eapply wf_no_argument; eauto; cbn; auto|].
        intros H. inversion H; subst; try contradiction; try reflexivity. exfalso. now apply H2; cbn; auto.
      * split.
        -- intros H. destruct (value_or_block number_arg a) as [v|e|] eqn:V; cbn [bind] in H.
           ++ destruct o; discriminate.
           ++ destruct o as [e'|]; [|discriminate]. injection H as <-. apply value_or_block_err in V as [(r' & -> & X & ->)|(Z & X)].
              ** eapply wf_reference; eauto. cbn; auto.
              ** apply number_err in X as [X ->]. eapply wf_number; eauto.
           ++ exfalso. revert V. apply value_or_block_nopanic. intros x. unfold number_arg. destruct (parse_f64 x); discriminate.
        -- intros H. inversion H; subst; try contradiction.
           ++ exfalso. apply H2. cbn; auto.
           ++ assert (V : @value_or_block ablock flt number_arg (64 :: r0) = Err (CeInvalidBlockId (64 :: r0))) by (apply value_or_block_err; left; eauto). now rewrite V.
           ++ match goal with Q : param_word _ "b"%string _ |- _ => apply D in Q as [X _]; [discriminate X|cbn; auto] end.
           ++ assert (V : @value_or_block ablock flt number_arg a = Err (CeInvalidNumberArgument a)) by (apply value_or_block_err; right; split; auto; apply number_err; auto). now rewrite V.
    + specialize (SM eq_refl). rewrite SN by (cbn; auto). destruct (name_of r) as [m|] eqn:M; [|congruence]. cbn [unwrap bind]. rewrite take_cases.
      pose proof (param_of 109 r "m" eq_refl) as W. destruct args as [|a args].
      * split; [intros H; destruct o; [injection H as <-|discriminate]; eapply wf_no_argument; eauto; cbn; auto|].
        intros H. inversion H; subst; try contradiction; try reflexivity. exfalso. now apply H2; cbn; auto.
      * split; [destruct o; discriminate|]. intros H. inversion H; subst; try contradiction.
        -- exfalso. apply H2. cbn; auto.
        -- assert (I : In letter ["s"; "b"; "d"; "m"]%string) by (cbn in *; tauto). match goal with Q : param_word _ letter _ |- _ => apply D in Q; [|exact I]; destruct Q as [X _] end.
           match goal with J : In letter ["s"; "b"; "d"]%string |- _ => destruct J as [<-|[<-|[<-|[]]]]; discriminate X end.
        -- match goal with Q : param_word _ "b"%string _ |- _ => apply D in Q as [X _]; [discriminate X|cbn; auto] end.
        -- match goal with Q : param_word _ "d"%string _ |- _ => apply D in Q as [X _]; [discriminate X|cbn; auto] end.
    + assert (NI : ~ In c (lit "sbdm")) by (cbn; lia). split.
      * intros H. destruct o; [injection H as <-|discriminate]. now constructor.
      * intros H. inversion H; subst; try contradiction; try reflexivity; exfalso.
        -- match goal with Q : param_word _ letter _ |- _ => apply param_letter in Q as (c' & r' & _ & E & _ & I); [|assumption] end. injection E as <- <-. contradiction.
        -- match goal with Q : param_word _ letter _ |- _ => apply param_letter in Q as (c' & r' & _ & E & _ & I); [injection E as <- <-; contradiction|] end. cbn in *. tauto.
        -- match goal with Q : param_word _ "b"%string _ |- _ => apply D in Q as [X _]; [injection X as X; congruence|cbn; auto] end.
        -- match goal with Q : param_word _ "d"%string _ |- _ => apply D in Q as [X _]; [injection X as X; congruence|cbn; auto] end.
Qed.
Lemma token_shift t args a r : starts_with [CH_PERCENT] t = true -> @token_parse ablock t args = Ok (a, r) ->
  exists x, args = x :: r /\ forall r', token_parse t (x :: r') = Ok (a, r').
Proof.
  intros P H. apply token_parse_ok in H; [|exact P]. inversion H; subst; eexists; (split; [reflexivity|]); intros r'; apply token_parse_ok; auto; now constructor.
Qed.
Lemma count_params_cons t ts : count_params (t :: ts) = ((if starts_with [CH_PERCENT] t then 1 else 0) + count_params ts)%nat.
Proof.
  unfold count_params. cbn [filter]. rewrite starts_percent. change CH_PERCENT with 37. destruct t as [|c t]; [reflexivity|]. now destruct (c =? 37).
Qed.
Lemma items_parse_app before more used rest (is : list (spec_item ablock)) : gives before used is -> length used = count_params before ->
  items_parse (before ++ more) (used ++ rest) = let* js := items_parse more rest in Ok (is ++ js).
Proof.
  intros G L. apply items_parse_iff in G. revert used is G L. induction before as [|t before IH]; intros used is G L.
  - destruct used; [|discriminate L]. injection G as <-. cbn [app]. destruct (items_parse more rest); reflexivity.
  - rewrite count_params_cons in L. cbn [app items_parse] in *. destruct (starts_with [CH_PERCENT] t) eqn:P.
    + destruct (token_parse t used) as [[a r]| |] eqn:T; try discriminate G. cbn [bind] in G.
      destruct (token_shift _ _ _ _ P T) as (x & -> & S). cbn [app]. rewrite S. cbn [bind].
      destruct (items_parse before r) as [is'| |] eqn:I; try discriminate G. cbn [bind] in G. injection G as <-.
      rewrite (IH r is' I) by (cbn [length] in L; lia). destruct (items_parse more rest); reflexivity.
    + destruct (items_parse before used) as [is'| |] eqn:I; try discriminate G. cbn [bind] in G. injection G as <-.
      rewrite (IH used is' I) by lia. destruct (items_parse more rest); reflexivity.
Qed.
Lemma fails_param t args o : word_fails t args o -> is_param t.
Proof.
  unfold is_param. intros [? ? B|c r ? _ _|t0 l n I W _|t0 l n r ? I W _|t0 n a ? W _ _|t0 n a ? W _ _]; try (destruct W as (r' & -> & _); eauto; fail); [|eauto].
  destruct B as [->|[(r & -> & _)|(c & r & -> & _)]]; eauto.
Qed.
Lemma param_starts t : is_param t <-> starts_with [CH_PERCENT] t = true.
Proof.
  rewrite starts_percent. unfold is_param. destruct t as [|c t]; [split; [intros (r & ?)|]; discriminate|].
  rewrite N.eqb_eq. split; [intros (r & [= -> _]); reflexivity|intros ->; now exists t].
Qed.
Lemma content_fails_iff ts args o : @items_parse ablock ts args = outcome o <-> content_fails ts args o.
Proof.
  split.
  - revert args. induction ts as [|t ts IH]; intros args; cbn [items_parse]; [destruct o; discriminate|].
    destruct (starts_with [CH_PERCENT] t) eqn:P.
    + intros H. destruct (token_parse t args) as [[a r]|e|] eqn:T; cbn [bind] in H.
      * destruct (token_shift _ _ _ _ P T) as (x & -> & S).
        assert (H' : @items_parse ablock ts r = outcome o) by (destruct (items_parse ts r); [destruct o; discriminate H|cbn in H; destruct o; cbn in *; congruence|destruct o; cbn in *; congruence]).
        apply IH in H' as (b & w & aft & us & rest & is & -> & -> & G & L & W). exists (t :: b), w, aft, (x :: us), rest, (SParam a :: is).
        split; [reflexivity|]. split; [reflexivity|]. split; [|split; [|exact W]].
        -- apply items_parse_iff. cbn [items_parse]. rewrite P, S. cbn [bind]. apply items_parse_iff in G. now rewrite G.
        -- rewrite count_params_cons, P. cbn [length]. lia.
      * exists [], t, ts, [], args, []. split; [reflexivity|]. split; [reflexivity|]. split; [constructor|]. split; [reflexivity|].
        apply word_fails_iff; [now apply param_starts|]. rewrite T. destruct o; cbn in *; congruence.
      * exists [], t, ts, [], args, []. split; [reflexivity|]. split; [reflexivity|]. split; [constructor|]. split; [reflexivity|].
        apply word_fails_iff; [now apply param_starts|]. rewrite T. destruct o; cbn in *; congruence.
    + intros H. assert (H' : @items_parse ablock ts args = outcome o) by (destruct (items_parse ts args); [destruct o; discriminate H|cbn in H; destruct o; cbn in *; congruence|destruct o; cbn in *; congruence]).
      apply IH in H' as (b & w & aft & us & rest & is & -> & -> & G & L & W). exists (t :: b), w, aft, us, rest, (SText t :: is).
      split; [reflexivity|]. split; [reflexivity|]. split; [|split; [|exact W]].
      * constructor; [now apply not_param|exact G].
      * rewrite count_params_cons, P. exact L.
  - intros (b & w & aft & us & rest & is & -> & -> & G & L & W). rewrite (items_parse_app _ _ _ _ _ G L). cbn [items_parse].
    pose proof (fails_param _ _ _ W) as P. rewrite (proj1 (param_starts w) P). apply word_fails_iff in W; [|exact P]. rewrite W. destruct o; reflexivity.
Qed.
Lemma content_parse_fails spec args o : @content_parse ablock spec args = outcome o <-> exists ws, words spec ws /\ content_fails ws args o.
Proof.
  unfold content_parse. rewrite content_fails_iff. split.
  - intros H. exists (split_on CH_SPACE spec). split; [now apply words_split|exact H].
  - intros (ws & W & H). apply words_split in W. now subst ws.
Qed.
(** without arguments *)
Lemma token_wo_cases t : is_param t -> match @token_wo_params ablock t with
  | Ok a => exists letter n, In letter ["s"; "b"; "d"; "m"]%string /\ param_word t letter n /\ ~ bad_word t
  | Err e => exists c r, t = 37 :: c :: r /\ ~ In c (lit "sbdm") /\ ~ bad_word t /\ e = CeUnknownSpecParam [c] t
  | Panic => bad_word t end.
Proof.
  intros P. destruct (word_cases t P) as [B|(NB & c & r & -> & n & S & SN & SM)].
  - pose proof (proj1 (bad_word_token' t) B) as T. now destruct (bad_token_panics (B := ablock) t [] T) as [_ ->].
  - unfold token_wo_params. rewrite S. cbn [bind nth_error unwrap].
    destruct (N.eqb_spec c 115) as [->|C1]; [exists "s"%string, (name_of r); split; [cbn; auto|]; split; [now apply param_of|exact NB]|].
    destruct (N.eqb_spec c 98) as [->|C2]; [exists "b"%string, (name_of r); split; [cbn; auto|]; split; [now apply param_of|exact NB]|].
    destruct (N.eqb_spec c 100) as [->|C3]; [exists "d"%string, (name_of r); split; [cbn; auto|]; split; [now apply param_of|exact NB]|].
    destruct (N.eqb_spec c 109) as [->|C4].
    + rewrite SN by (cbn; auto). specialize (SM eq_refl). destruct (name_of r) as [m|] eqn:M; [|congruence]. cbn [unwrap bind].
      exists "m"%string, (Some m). split; [cbn; auto|]. split; [rewrite <- M; now apply param_of|exact NB].
    + exists c, r. split; [reflexivity|]. split; [cbn; lia|]. auto.
Qed.
Lemma spec_fails_iff ts o : @items_wo_params ablock ts = outcome o <-> spec_fails ts o.
Proof.
  split.
  - induction ts as [|t ts IH]; cbn [items_wo_params]; [destruct o; discriminate|]. intros H.
    assert (H' : forall (x : spec_item ablock), (let* is := items_wo_params ts in Ok (x :: is)) = outcome o -> @items_wo_params ablock ts = outcome o).
    { intros x X. destruct (items_wo_params ts); [destruct o; discriminate X|cbn in X; destruct o; cbn in *; congruence|destruct o; cbn in *; congruence]. }
    destruct (starts_with [CH_PERCENT] t) eqn:P.
    + apply param_starts in P. pose proof (token_wo_cases t P) as C. destruct (@token_wo_params ablock t) as [a|e|]; cbn [bind] in H.
      * apply H' in H. apply IH in H as (b & w & aft & -> & F & W). exists (t :: b), w, aft. split; [reflexivity|]. split; [constructor; auto|exact W].
      * exists [], t, ts. split; [reflexivity|]. split; [constructor|]. right. destruct C as (c & r & E & NI & NB & ->). exists c, r.
        repeat split; auto. destruct o; cbn in H; congruence.
      * exists [], t, ts. split; [reflexivity|]. split; [constructor|]. left. split; [exact C|]. destruct o; cbn in H; congruence.
    + cbn [bind] in H. apply H' in H. apply IH in H as (b & w & aft & -> & F & W). exists (t :: b), w, aft. split; [reflexivity|]. split; [|exact W].
      constructor; [|exact F]. intros Q. apply param_starts in Q. congruence.
  - intros (b & w & aft & -> & F & W). induction F as [|t b Ht F IH]; cbn [app items_wo_params].
    + assert (P : is_param w) by (destruct W as [[B _]|(c & r & -> & _)]; [|now exists (c :: r)];
        destruct B as [->|[(r & -> & _)|(c & r & -> & _)]]; unfold is_param; eauto).
      rewrite (proj1 (param_starts w) P). pose proof (token_wo_cases w P) as C. destruct (@token_wo_params ablock w) as [a|e|]; cbn [bind].
      * exfalso. destruct C as (l & n & I & PW & NB). destruct W as [[B _]|(c & r & -> & NI & _)]; [contradiction|].
        apply param_letter in PW as (c' & r' & _ & E & _ & I'); [|exact I]. injection E as <- <-. contradiction.
      * destruct C as (c & r & E & NI & NB & ->). destruct W as [[B _]|(c' & r' & E' & _ & _ & ->)]; [contradiction|]. cbn [outcome].
        rewrite E in E'. injection E' as <- <-. now rewrite E.
      * destruct W as [[B ->]|(c' & r' & E' & _ & NB & _)]; [reflexivity|contradiction].
    + assert (X : exists i, (if starts_with [CH_PERCENT] t then let* a := @token_wo_params ablock t in Ok (SParam a) else Ok (SText t)) = @Ok content_error (spec_item ablock) i).
      { destruct (starts_with [CH_PERCENT] t) eqn:P; [|eauto]. apply param_starts in P. pose proof (token_wo_cases t P) as C.
        destruct (Ht P) as (l & n & I & PW & NB). destruct (@token_wo_params ablock t) as [a|e|]; [cbn; eauto|exfalso|contradiction].
        destruct C as (c & r & -> & NI & _). apply param_letter in PW as (c' & r' & _ & E & _ & I'); [|exact I]. injection E as <- <-. contradiction. }
      destruct X as (i & ->). cbn [bind]. rewrite IH. destruct o; reflexivity.
Qed.
Lemma parse_wo_fails spec o : @parse_wo_params ablock spec = outcome o <-> exists ws, words spec ws /\ spec_fails ws o.
Proof.
  unfold parse_wo_params. rewrite spec_fails_iff. split.
  - intros H. exists (split_on CH_SPACE spec). split; [now apply words_split|exact H].
  - intros (ws & W & H). apply words_split in W. now subst ws.
Qed.

(** ** Containers *)
#[local] Arguments parse_block : simpl never.
#[local] Arguments parse_blocks : simpl never.
Lemma obnd_fails {E A C} (x : out E A) (f : A -> out E C) o : obnd x f = Some (outcome o) <->
  x = Some (outcome o) \/ exists a, x = Some (Ok a) /\ f a = Some (outcome o).
Proof.
  destruct x as [[a|e|]|]; cbn [obnd]; split.
  - eauto.
  - intros [H|(b & [= <-] & H)]; [destruct o; discriminate|exact H].
  - destruct o as [e'|]; cbn; [|discriminate]. intros [= <-]. auto.
  - intros [H|(b & H & _)]; [|discriminate]. destruct o as [e'|]; cbn in *; congruence.
  - destruct o as [e'|]; cbn; [discriminate|]. auto.
  - intros [H|(b & H & _)]; [|discriminate]. destruct o as [e'|]; cbn in *; congruence.
  - discriminate.
  - intros [H|(b & H & _)]; discriminate.
Qed.
Lemma omap_err_fails {E F A} (f : E -> F) (x : out E A) o : omap_err f x = Some (outcome o) <-> exists o', o = option_map f o' /\ x = Some (outcome o').
Proof.
  destruct x as [[a|e|]|]; cbn [omap_err option_map map_err]; split.
  - intros H. destruct o; discriminate.
  - intros (o' & _ & H). destruct o'; discriminate.
  - destruct o as [e'|]; cbn; [|discriminate]. intros [= <-]. exists (Some e). auto.
  - intros (o' & -> & H). destruct o'; cbn in *; congruence.
  - destruct o as [e'|]; cbn; [discriminate|]. intros _. exists None. auto.
  - intros (o' & -> & H). destruct o'; cbn in *; congruence.
  - discriminate.
  - intros (o' & _ & H). discriminate.
Qed.
Lemma map_err_fails {E F A} (f : E -> F) (x : res E A) o : Some (map_err f x) = Some (outcome o) <-> exists o', o = option_map f o' /\ x = outcome o'.
Proof.
  rewrite (omap_err_fails f (Some x)). split; intros (o' & -> & H); exists o'; split; congruence.
Qed.
Lemma used_unused u M v : used (mdel u M) v -> unused u v.
Proof. intros [N D]. split; [exact N|]. intros k I K. apply (D k I). now apply bget_mdel_in. Qed.
Lemma reads_mdel u M : (forall z s v, reads_sub (mg (mdel u M)) z s v -> reads_sub (mg M) z s v) /\
  (forall id b v, reads_block (mg (mdel u M)) id b v -> reads_block (mg M) id b v) /\
  (forall a b v, reads_arg (mg (mdel u M)) a b v -> reads_arg (mg M) a b v) /\
  (forall h i v, reads_items (mg (mdel u M)) h i v -> reads_items (mg M) h i v).
Proof.
  pose proof (reads_mono (mg (mdel u M)) (mg M) (fun k p => mg_mdel u M k p)) as (A & B & C & D & E). auto.
Qed.
Lemma items_sound d items m i' m' : Forall fresh_arg (get_args items) -> apply_blocks (parse_block d) ab_op_code items m = Some (Ok (i', m')) ->
  exists u, reads_items (mg m) items i' u /\ used m u /\ m' = mdel u m.
Proof.
  pose proof (proj1 (parse_sound d)) as IHb. revert items m i' m'.
  assert (Arg : forall a m b m', fresh_arg a -> fill_arg (parse_block d) ab_op_code a m = Some (Ok (b, m')) ->
            exists u, reads_arg (mg m) a b u /\ used m u /\ m' = mdel u m).
  { intros a m b m' F K. destruct a as [n v|n v|n v|n v]; cbn [fresh_arg] in F; cbn [fill_arg] in K; apply obnd_ok in K as ([w m1] & K & [= <- <-]).
    - destruct F as [[t ->]|[id ->]]; cbn [fill_value] in K.
      + injection K as <- <-. exists []. split; [constructor|]. split; [apply used_nil|now rewrite mdel_nil].
      + apply obnd_ok in K as ([x y] & K & [= <- <-]). unfold get_block in K. apply (proj1 (omap_err_ok _ _ _)) in K. apply IHb in K as (u & R & U & ->).
        exists u. split; [now constructor|auto].
    - destruct F as [[t ->]|[id ->]]; cbn [fill_value] in K.
      + injection K as <- <-. exists []. split; [constructor|]. split; [apply used_nil|now rewrite mdel_nil].
      + apply obnd_ok in K as ([x y] & K & [= <- <-]). unfold get_block in K. apply (proj1 (omap_err_ok _ _ _)) in K. apply IHb in K as (u & R & U & ->).
        exists u. split; [now constructor|auto].
    - destruct F as [[t ->]|[id ->]]; cbn [fill_boolean] in K.
      + injection K as <- <-. exists []. split; [constructor|]. split; [apply used_nil|now rewrite mdel_nil].
      + apply obnd_ok in K as ([x y] & K & [= <- <-]). unfold get_block in K. apply (proj1 (omap_err_ok _ _ _)) in K. apply IHb in K as (u & R & U & ->).
        exists u. split; [|auto]. destruct (str_eqb_spec (ab_op_code x) (lit "true")); [now apply rd_true with x|].
        destruct (str_eqb_spec (ab_op_code x) (lit "false")); [now apply rd_false with x|]. now apply rd_boolean_block.
    - destruct F as [t ->]; cbn [fill_value] in K. injection K as <- <-. exists []. split; [constructor|]. split; [apply used_nil|now rewrite mdel_nil]. }
  assert (Its : forall items m i' m', Forall fresh_arg (get_args items) -> apply_blocks (parse_block d) ab_op_code items m = Some (Ok (i', m')) ->
            exists u, reads_items (mg m) items i' u /\ used m u /\ m' = mdel u m).
  { induction items as [|[t|a] items IH]; intros m i' m' F K; cbn [apply_blocks] in K.
    - injection K as <- <-. exists []. split; [constructor|]. split; [apply used_nil|now rewrite mdel_nil].
    - apply obnd_ok in K as ([is m1] & K & [= <- <-]). apply IH in K as (u & R & U & ->); [|exact F]. exists u. split; [now constructor|auto].
    - cbn [get_args flat_map app] in F. inversion F; subst. apply obnd_ok in K as ([b m1] & K1 & K). apply obnd_ok in K as ([is m2] & K2 & [= <- <-]).
      apply Arg in K1 as (v & Rv & Uv & ->); auto. apply IH in K2 as (u & Ru & Uu & ->); auto. exists (v ++ u). split.
      + constructor; auto. revert Ru. apply reads_mono. apply mg_mdel.
      + split; [now apply used_app|now rewrite mdel_app]. }
  exact Its.
Qed.
Lemma fails_sound M d :
  (forall id u o, parse_block d id (mdel u M) = Some (outcome o) -> fails_block (mg M) u id o) /\
  (forall id u o, parse_blocks d id (mdel u M) = Some (outcome o) -> fails_stack (mg M) u id o).
Proof.
  induction d as [|d [IHb IHs]]; [split; discriminate|].
  assert (Sub : forall err z u o, sub_step d err z (mdel u M) = Some (outcome o) -> (0 <= z)%Z /\ exists o', o = option_map err o' /\ fails_stack (mg M) u (Z.to_N z) o').
  { intros err z u o. unfold sub_step. destruct (Z.ltb_spec z 0) as [Hz|Hz]; [destruct o; discriminate|]. intros K. split; [lia|].
    apply obnd_fails in K as [K|([l m1] & _ & K)]; [|destruct o; discriminate]. apply omap_err_fails in K as (o' & -> & K). eauto. }
  assert (SubOk : forall err z u s m', sub_step d err z (mdel u M) = Some (Ok (s, m')) -> exists v, reads_sub (mg M) z s v /\ used (mdel u M) v /\ m' = mdel (u ++ v) M).
  { intros err z u s m'. unfold sub_step. destruct (Z.ltb_spec z 0) as [Hz|Hz].
    - intros [= <- <-]. exists []. split; [now constructor|]. split; [apply used_nil|]. now rewrite app_nil_r.
    - intros K. apply obnd_ok in K as ([l m1] & K & [= <- <-]). apply (proj1 (omap_err_ok _ _ _)) in K. apply parse_sound in K as (v & R & U & ->).
      exists v. split; [|split; [exact U|now rewrite mdel_app]]. constructor; [lia|]. revert R. apply reads_mono. apply mg_mdel. }
  assert (Arg : forall a u o, fresh_arg a -> fill_arg (parse_block d) ab_op_code a (mdel u M) = Some (outcome o) ->
            exists id o', refers a id /\ o = option_map (fun _ => CeBlockNotFound id) o' /\ fails_block (mg M) u id o').
  { intros a u o F K. destruct a as [n v|n v|n v|n v]; cbn [fresh_arg] in F; cbn [fill_arg] in K;
      apply obnd_fails in K as [K|([w m1] & _ & K)]; try (destruct o; discriminate).
    - destruct F as [[t ->]|[id ->]]; cbn [fill_value] in K; [destruct o; discriminate|].
      apply obnd_fails in K as [K|([x y] & _ & K)]; [|destruct o; discriminate]. unfold get_block in K. apply omap_err_fails in K as (o' & -> & K).
      exists id, o'. split; [left; eauto|]. split; [reflexivity|auto].
    - destruct F as [[t ->]|[id ->]]; cbn [fill_value] in K; [destruct o; discriminate|].
      apply obnd_fails in K as [K|([x y] & _ & K)]; [|destruct o; discriminate]. unfold get_block in K. apply omap_err_fails in K as (o' & -> & K).
      exists id, o'. split; [right; left; eauto|]. split; [reflexivity|auto].
    - destruct F as [[t ->]|[id ->]]; cbn [fill_boolean] in K; [destruct o; discriminate|].
      apply obnd_fails in K as [K|([x y] & _ & K)]; [|destruct o; discriminate]. unfold get_block in K. apply omap_err_fails in K as (o' & -> & K).
      exists id, o'. split; [right; right; eauto|]. split; [reflexivity|auto].
    - destruct F as [t ->]; cbn [fill_value] in K; destruct o; discriminate. }
  assert (ArgOk : forall a u b m', fresh_arg a -> fill_arg (parse_block d) ab_op_code a (mdel u M) = Some (Ok (b, m')) ->
            exists v, reads_arg (mg M) a b v /\ used (mdel u M) v /\ m' = mdel (u ++ v) M).
  { intros a u b m' F K.
    assert (K' : apply_blocks (parse_block d) ab_op_code [SParam a] (mdel u M) = Some (Ok ([SParam b], m'))) by (cbn [apply_blocks]; now rewrite K).
    assert (K2 : exists v, reads_items (mg (mdel u M)) [SParam a] [SParam b] v /\ used (mdel u M) v /\ m' = mdel v (mdel u M)).
    { apply (items_sound d); [|exact K']. cbn. auto. }
    destruct K2 as (v & R & U & ->). exists v. split; [|split; [exact U|now rewrite mdel_app]]. inversion R; subst.
    match goal with Q : reads_items _ [] [] _ |- _ => inversion Q; subst end. rewrite app_nil_r.
    match goal with Q : reads_arg _ _ _ _ |- _ => revert Q; apply reads_mono, mg_mdel end. }
  assert (Its : forall items u o, Forall fresh_arg (get_args items) -> apply_blocks (parse_block d) ab_op_code items (mdel u M) = Some (outcome o) ->
            fails_items (mg M) u items o).
  { induction items as [|[t|a] items IH]; intros u o F K; cbn [apply_blocks] in K.
    - destruct o; discriminate.
    - apply obnd_fails in K as [K|([is m1] & _ & K)]; [|destruct o; discriminate]. constructor. auto.
    - cbn [get_args flat_map app] in F. inversion F; subst. apply obnd_fails in K as [K|([b m1] & K1 & K)].
      + apply Arg in K as (id & o' & R & -> & K); [|assumption]. econstructor; eauto.
      + apply ArgOk in K1 as (v & R & U & ->); [|assumption]. apply obnd_fails in K as [K|([is m2] & _ & K)]; [|destruct o; discriminate].
        eapply fl_later; eauto. now apply used_unused in U. }
  assert (ItsOk : forall items u i' m', Forall fresh_arg (get_args items) -> apply_blocks (parse_block d) ab_op_code items (mdel u M) = Some (Ok (i', m')) ->
            exists v, reads_items (mg M) items i' v /\ used (mdel u M) v /\ m' = mdel (u ++ v) M).
  { intros items u i' m' F K. apply (items_sound d) in K as (v & R & U & ->); [|exact F]. exists v. split; [|split; [exact U|now rewrite mdel_app]].
    revert R. apply reads_mono, mg_mdel. }
  split; intros id u o K.
  - rewrite parse_block_S in K. apply obnd_fails in K as [K|(pb & Hg & K)].
    { rewrite bget_mdel in K. destruct (existsb (N.eqb id) u) eqn:X; cbn [ok_or] in K.
      - destruct o; cbn in K; [|discriminate]. injection K as <-. constructor. intros pb _. now apply existsb_eqb.
      - destruct (bget id M) as [pb|] eqn:B; [destruct o; discriminate|]. destruct o; cbn in K; [|discriminate]. injection K as <-. constructor.
        intros pb Q. unfold mg in Q. congruence. }
    apply (proj1 (ok_or_ok _ _ _)) in Hg. assert (U0 : used (mdel u M) [id]).
    { split; [repeat constructor; auto|]. intros k [<-|[]]. congruence. }
    pose proof (mg_mdel u M id pb Hg) as G. rewrite bremove_mdel, <- mdel_app in K.
    apply obnd_fails in K as [K|([s1 m1] & K1 & K)].
    { apply Sub in K as (Z1 & o' & -> & K). eapply fl_sub1; eauto. now apply used_unused in U0. }
    apply SubOk in K1 as (u1 & R1 & U1 & ->). rewrite <- app_assoc in K. cbn [app] in K. rewrite mdel_app in U1. pose proof (used_app _ _ _ U0 U1) as V1. cbn [app] in V1.
    apply obnd_fails in K as [K|([s2 m2] & K2 & K)].
    { apply Sub in K as (Z1 & o' & -> & K). eapply fl_sub2; eauto. now apply used_unused in V1. }
    apply SubOk in K2 as (u2 & R2 & U2 & ->). rewrite <- app_assoc in K. cbn [app] in K. rewrite mdel_app in U2. pose proof (used_app _ _ _ V1 U2) as V2. cbn [app] in V2.
    assert (W : words (bl_spec pb) (split_on CH_SPACE (bl_spec pb))) by now apply words_split.
    apply obnd_fails in K as [K|(items & K3 & K)].
    { apply map_err_fails in K as (o' & -> & K). unfold content_parse in K. apply content_fails_iff in K. eapply fl_content; eauto. now apply used_unused in V2. }
    apply (proj1 (map_err_ok _ _ _)) in K3. unfold content_parse in K3. apply items_parse_iff in K3. pose proof (gives_fresh _ _ _ K3) as FA.
    apply obnd_fails in K as [K|([i' m3] & K4 & K)].
    { apply omap_err_fails in K as (o' & -> & K). eapply fl_items; eauto. now apply used_unused in V2. }
    apply (proj1 (omap_err_ok _ _ _)) in K4. apply ItsOk in K4 as (u3 & R3 & U3 & ->); [|exact FA].
    rewrite mdel_app in U3. pose proof (used_app _ _ _ V2 U3) as V3. cbn [app] in V3. rewrite <- app_assoc in V3.
    apply obnd_fails in K as [K|(ty & _ & K)]; [|destruct o; discriminate].
    apply map_err_fails in K as (o' & -> & K). destruct o' as [e|]; [|now apply block_type_from_nopanic in K]. cbn [option_map].
    apply type_text_err in K as [K ->]. eapply fl_type; eauto. now apply used_unused in V3.
  - rewrite parse_blocks_S in K. apply obnd_fails in K as [K|(pb & Hg & K)].
    { constructor. rewrite bget_mdel in K. destruct (existsb (N.eqb id) u) eqn:X; cbn [ok_or] in K.
      - destruct o; cbn in K; [|discriminate]. injection K as <-. constructor. intros pb _. now apply existsb_eqb.
      - destruct (bget id M) as [pb|] eqn:B; [destruct o; discriminate|]. destruct o; cbn in K; [|discriminate]. injection K as <-. constructor.
        intros pb Q. unfold mg in Q. congruence. }
    apply (proj1 (ok_or_ok _ _ _)) in Hg. pose proof (mg_mdel u M id pb Hg) as G.
    apply obnd_fails in K as [K|([b m1] & K1 & K)]; [constructor; auto|].
    apply parse_sound in K1 as (v & R & U & ->). rewrite <- mdel_app in K. destruct (Z.ltb_spec (bl_next_block pb) 0); [destruct o; discriminate|].
    apply obnd_fails in K as [K|([bs m2] & _ & K)]; [|destruct o; discriminate].
    apply used_unused in U. apply reads_mdel in R. eapply fl_next; eauto.
Qed.
Scheme flb_ind := Induction for fails_block Sort Prop
with fls_ind := Induction for fails_stack Sort Prop
with fli_ind := Induction for fails_items Sort Prop.
Combined Scheme fails_ind from flb_ind, fls_ind, fli_ind.
Lemma unused_avail (G : N -> block -> Prop) M u v : (forall k p, G k p -> bget k M = Some p) -> unused u v -> avail G (mdel u M) v.
Proof. intros H [_ D] k p I Q. rewrite bget_mdel_out; auto. Qed.
Lemma unused_app_l u v w : unused u (v ++ w) -> unused u v.
Proof. intros [N D]. apply NoDup_app_elim in N as (N & _ & _). split; [exact N|]. intros k I. apply D, in_app_iff. auto. Qed.
Lemma unused_app_r u v w : unused u (v ++ w) -> unused (u ++ v) w.
Proof.
  intros [N D]. apply NoDup_app_elim in N as (_ & N & X). split; [exact N|]. intros k I J. apply in_app_iff in J as [J|J].
  - apply (D k); [apply in_app_iff; auto|exact J].
  - now apply (X k).
Qed.
Lemma fails_complete (G : N -> block -> Prop) M : (forall k p, G k p <-> bget k M = Some p) ->
  (forall u id o, fails_block G u id o -> ev (fun d => parse_block d id (mdel u M) = Some (outcome o))) /\
  (forall u id o, fails_stack G u id o -> ev (fun d => parse_blocks d id (mdel u M) = Some (outcome o))) /\
  (forall u h o, fails_items G u h o -> ev (fun d => apply_blocks (parse_block d) ab_op_code h (mdel u M) = Some (outcome o))).
Proof.
  intros HG. pose proof (parse_complete G) as (PB & PS & PK & PI & PA).
  assert (A : forall u v, unused u v -> avail G (mdel u M) v) by (intros u v; apply unused_avail; intros; now apply HG).
  assert (Sub : forall u z s v, reads_sub G z s v -> unused u v -> ev (fun d => forall err, sub_step d err z (mdel u M) = Some (Ok (s, mdel (u ++ v) M)))).
  { intros u z s v R U. generalize (PS z s v R _ (A _ _ U) (proj1 U)). apply ev_impl. intros d E err. now rewrite E, mdel_app. }
  assert (Get : forall u id pb, G id pb -> unused u [id] -> bget id (mdel u M) = Some pb).
  { intros u id pb Hg [_ D]. rewrite bget_mdel_out; [now apply HG|]. apply D. now left. }
  assert (C1 : forall u id v, unused u (id :: v) -> unused u [id] /\ unused (u ++ [id]) v).
  { intros u id v U. change (id :: v) with ([id] ++ v) in U. split; [now apply unused_app_l in U|now apply unused_app_r in U]. }
  assert (SubFail : forall d err z u (o : option conv_error), (0 <= z)%Z -> parse_blocks d (Z.to_N z) (mdel u M) = Some (outcome o) -> sub_step d err z (mdel u M) = Some (outcome (option_map err o))).
  { intros d err z u o Hz E. unfold sub_step. replace (z <? 0)%Z with false by lia. rewrite E. destruct o; reflexivity. }
  assert (Bad : forall A C (o : option conv_error) (f : A -> out conv_error C), obnd (Some (outcome o)) f = Some (outcome o)) by (intros ? ? [|] ?; reflexivity).
  apply (fails_ind G (fun u id o _ => ev (fun d => parse_block d id (mdel u M) = Some (outcome o)))
    (fun u id o _ => ev (fun d => parse_blocks d id (mdel u M) = Some (outcome o)))
    (fun u h o _ => ev (fun d => apply_blocks (parse_block d) ab_op_code h (mdel u M) = Some (outcome o)))).
  - intros u id N. apply ev_S. exists 0%nat. intros d _. rewrite parse_block_S.
    replace (bget id (mdel u M)) with (@None block); [reflexivity|]. rewrite bget_mdel. destruct (existsb (N.eqb id) u) eqn:X; [reflexivity|].
    destruct (bget id M) as [pb|] eqn:B; [|reflexivity]. apply HG in B. apply N in B. apply existsb_eqb in B. congruence.
  - intros u id pb o Hg U Hz F I. apply ev_S. revert I. apply ev_impl. intros d E. rewrite parse_block_S, (Get _ _ _ Hg U). cbn [ok_or obnd].
    rewrite bremove_mdel, <- mdel_app. rewrite (SubFail _ _ _ _ _ Hz E). apply Bad.
  - intros u id pb s1 u1 o Hg R1 U Hz F I. apply ev_S. destruct (C1 _ _ _ U) as [U0 U1].
    generalize (ev_and _ _ (Sub _ _ _ _ R1 U1) I). apply ev_impl. intros d [E1 E]. rewrite parse_block_S, (Get _ _ _ Hg U0). cbn [ok_or obnd].
    rewrite bremove_mdel, <- mdel_app, E1. cbn [obnd]. rewrite <- app_assoc. cbn [app]. rewrite (SubFail _ _ _ _ _ Hz E). apply Bad.
  - intros u id pb s1 u1 s2 u2 ws o Hg R1 R2 U W F. apply ev_S. destruct (C1 _ _ _ U) as [U0 U1]. pose proof (unused_app_r _ _ _ U1) as U2. apply unused_app_l in U1.
    generalize (ev_and _ _ (Sub _ _ _ _ R1 U1) (Sub _ _ _ _ R2 U2)). apply ev_impl. intros d [E1 E2]. rewrite parse_block_S, (Get _ _ _ Hg U0). cbn [ok_or obnd].
    rewrite bremove_mdel, <- mdel_app, E1. cbn [obnd]. rewrite E2. cbn [obnd].
    assert (E3 : content_parse (bl_spec pb) (bl_parameters pb) = outcome o) by (apply content_parse_fails; eauto). rewrite E3. destruct o; reflexivity.
  - intros u id pb s1 u1 s2 u2 ws holes o Hg R1 R2 U W Gv F I. apply ev_S. destruct (C1 _ _ _ U) as [U0 U1]. pose proof (unused_app_r _ _ _ U1) as U2. apply unused_app_l in U1.
    generalize (ev_and _ _ (Sub _ _ _ _ R1 U1) (ev_and _ _ (Sub _ _ _ _ R2 U2) I)). apply ev_impl. intros d (E1 & E2 & E). rewrite parse_block_S, (Get _ _ _ Hg U0). cbn [ok_or obnd].
    rewrite bremove_mdel, <- mdel_app, E1. cbn [obnd]. rewrite E2. cbn [obnd].
    unfold content_parse. apply (proj1 (words_split _ _)) in W. rewrite <- W. apply (proj2 (items_parse_iff _ _ _)) in Gv. rewrite Gv. cbn [map_err obnd].
    rewrite <- !app_assoc. cbn [app]. rewrite E. destruct o; reflexivity.
  - intros u id pb s1 u1 s2 u2 ws holes items u3 Hg R1 R2 W Gv R3 U T. apply ev_S. destruct (C1 _ _ _ U) as [U0 U1]. pose proof (unused_app_r _ _ _ U1) as U2. apply unused_app_l in U1.
    pose proof (unused_app_r _ _ _ U2) as U3. apply unused_app_l in U2.
    generalize (ev_and _ _ (Sub _ _ _ _ R1 U1) (ev_and _ _ (Sub _ _ _ _ R2 U2) (PI _ _ _ R3 _ (A _ _ U3) (proj1 U3)))). apply ev_impl. intros d (E1 & E2 & E).
    rewrite parse_block_S, (Get _ _ _ Hg U0). cbn [ok_or obnd].
    rewrite bremove_mdel, <- mdel_app, E1. cbn [obnd]. rewrite E2. cbn [obnd].
    unfold content_parse. apply (proj1 (words_split _ _)) in W. rewrite <- W. apply (proj2 (items_parse_iff _ _ _)) in Gv. rewrite Gv. cbn [map_err obnd].
    rewrite E. cbn [omap_err option_map map_err obnd]. rewrite (proj2 (type_text_err _ _ _) (conj T eq_refl)). reflexivity.
  - intros u id o F I. apply ev_S. assert (X : forall d, parse_block d id (mdel u M) = Some (outcome o) -> parse_blocks (S d) id (mdel u M) = Some (outcome o)).
    { intros d E. rewrite parse_blocks_S. destruct (bget id (mdel u M)) as [pb|] eqn:B; cbn [ok_or obnd]; [rewrite E; apply Bad|].
      destruct d; [discriminate|]. rewrite parse_block_S, B in E. cbn [ok_or obnd] in E. destruct o; cbn [outcome] in E |- *; [injection E as <-; reflexivity|discriminate]. }
    revert I. now apply ev_impl.
  - intros u id pb b v o Hg Hn R U F I. apply ev_S. generalize (ev_and _ _ (PB _ _ _ R _ (A _ _ U) (proj1 U)) I). apply ev_impl. intros d [E1 E].
    assert (Hid : In id v) by (inversion R; now left). rewrite parse_blocks_S. rewrite (A _ _ U id pb Hid Hg). cbn [ok_or obnd]. rewrite E1. cbn [obnd].
    replace (bl_next_block pb <? 0)%Z with false by lia. rewrite <- mdel_app, E. apply Bad.
  - intros u t h o F I. revert I. apply ev_impl. intros d E. cbn [apply_blocks]. rewrite E. destruct o; reflexivity.
  - intros u a h id o R F I. revert I. apply ev_impl. intros d E. cbn [apply_blocks].
    destruct R as [(n & ->)|[(n & ->)|(n & ->)]]; cbn [fill_arg fill_value fill_boolean]; unfold get_block; rewrite E; destruct o; reflexivity.
  - intros u a b v h o R U F I. generalize (ev_and _ _ (PA _ _ _ R _ (A _ _ U) (proj1 U)) I). apply ev_impl. intros d [E1 E]. cbn [apply_blocks].
    rewrite E1. cbn [obnd]. rewrite <- mdel_app, E. destruct o; reflexivity.
Qed.
Lemma fails_graph (G G' : N -> block -> Prop) : (forall k p, G k p <-> G' k p) ->
  (forall u id o, fails_block G u id o -> fails_block G' u id o) /\ (forall u id o, fails_stack G u id o -> fails_stack G' u id o) /\
  (forall u h o, fails_items G u h o -> fails_items G' u h o).
Proof.
  intros H. pose proof (reads_mono G G' (fun k p => proj1 (H k p))) as (RB & RS & RK & RI & RA).
  apply (fails_ind G (fun u id o _ => fails_block G' u id o) (fun u id o _ => fails_stack G' u id o) (fun u h o _ => fails_items G' u h o)); intros.
  - constructor. intros pb Q. apply H in Q. eauto.
  - apply fl_sub1; auto. now apply H.
  - eapply fl_sub2; eauto. now apply H.
  - eapply fl_content; eauto. now apply H.
  - eapply fl_items; eauto. now apply H.
  - eapply fl_type; eauto. now apply H.
  - now constructor.
  - eapply fl_next; eauto. now apply H.
  - now constructor.
  - econstructor; eauto.
  - eapply fl_later; eauto.
Qed.
Lemma to_map_err l acc e : to_map l acc = Err e <-> exists before b after, l = before ++ b :: after /\
  Forall (fun b => parse_u32 (bl_id b) <> None) before /\ parse_u32 (bl_id b) = None /\ e = MalformedBlockId (bl_id b).
Proof.
  revert acc. induction l as [|b l IH]; intros acc; cbn [to_map].
  - split; [discriminate|]. intros (x & y & z & H & _). now destruct x.
  - destruct (parse_u32 (bl_id b)) as [n|] eqn:P; cbn [ok_or bind].
    + rewrite IH. split.
      * intros (x & y & z & -> & F & N & ->). exists (b :: x), y, z. repeat split; auto. constructor; auto. congruence.
      * intros (x & y & z & E & F & N & ->). destruct x as [|x xs]; [injection E as <- _; congruence|]. injection E as -> ->. inversion F; subst.
        exists xs, y, z. auto.
    + split.
      * intros [= <-]. exists [], b, l. repeat split; auto.
      * intros (x & y & z & E & F & N & ->). destruct x as [|x xs]; [injection E as <- _; reflexivity|]. injection E as -> ->. inversion F; subst. congruence.
Qed.
Lemma try_from_fails c o : blocks_try_from c = outcome o <-> container_fails c o.
Proof.
  pose proof (try_from_total c) as T. split.
  - intros H. specialize (T (enough c) (Nat.le_refl _)). rewrite H in T. unfold try_from_depth in T. apply obnd_fails in T as [T|(m & Hm & T)].
    + left. destruct o as [e|]; [|injection T as T; now apply to_map_nopanic in T]. assert (T' : to_map c [] = Err e) by (cbn [outcome] in T; destruct (to_map c []); congruence).
      apply to_map_err in T' as (x & y & z & -> & F & N & ->). exists x, y, z. auto.
    + right. assert (Hm' : to_map c [] = Ok m) by congruence. apply to_map_ok in Hm' as (kvs & K & E). rewrite fold_binsert in E. cbn [mdel filter app] in E.
      destruct m as [|[id b] m]; [destruct o; discriminate|]. apply obnd_fails in T as [T|([bs m'] & _ & T)]; [|destruct o; discriminate].
      split; [now apply keyed_all in K|]. exists id. split; [apply (keyed_start c kvs); auto; eauto|].
      assert (T' : parse_blocks (enough c) id (mdel [] ((id, b) :: m)) = Some (outcome o)) by (rewrite mdel_nil; exact T).
      apply fails_sound in T'. revert T'. apply fails_graph. intros k p. unfold mg. rewrite E. symmetry. now apply keyed_graph.
  - intros [(x & y & z & -> & F & N & ->)|[F (id & S & R)]].
    + assert (X : to_map (x ++ y :: z) [] = Err (MalformedBlockId (bl_id y))) by (apply to_map_err; exists x, y, z; auto).
      unfold blocks_try_from, try_from_depth. now rewrite X.
    + destruct (keyed_exists c F) as (kvs & K).
      assert (Hm : to_map c [] = Ok (dedup kvs)) by (apply to_map_ok; exists kvs; split; auto; now rewrite fold_binsert).
      apply (keyed_start c kvs) in S as (b & m & E); auto.
      destruct (proj1 (proj2 (fails_complete (graph c) (dedup kvs) (fun k p => keyed_graph c kvs k p K))) _ _ _ R) as (d0 & D).
      specialize (T (max (enough c) d0) ltac:(lia)). unfold try_from_depth in T. rewrite Hm in T. cbn [obnd] in T. rewrite mdel_nil in D. rewrite E in T, D.
      rewrite D in T by lia. cbn [obnd] in T. destruct o; cbn in *; congruence.
Qed.
