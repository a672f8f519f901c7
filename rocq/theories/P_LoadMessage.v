(** The texts of the errors of the API: properties C83 and C84. *)
From Verif Require Import Base Str Dec Spec SpecLines SpecJson SpecNumber SpecRecord SpecBlock SpecScreen SpecLoad SpecTools SpecMessage M_Color M_Raw M_File M_Library M_Resource M_View M_Logic M_Project M_Parsed
  A_Block A_View A_Screen A_Project M_Message ToolProofs RecordProofs BlockFailProofs ViewFlatProofs P_Color P_Screen P_Resources P_Block P_BlockError P_ApiView P_Loading P_Message.

(** ** Ids *)
Lemma too_large_sign t : too_large (43 :: t) <-> exists ds r, t = ds ++ r /\ digits ds /\ (4294967296 <= decimal ds)%Z.
Proof.
  split.
  - intros (sign & ds & r & E & I & D & L). destruct I as [<-|[<-|[]]].
    + destruct D as [N F]. destruct ds as [|c ds]; [easy|]. injection E as <- _. inversion F; subst. lia.
    + injection E as ->. eauto.
  - intros (ds & r & -> & D & L). exists (lit "+"), ds, r. split; [reflexivity|]. split; [right; now left|auto].
Qed.
Lemma ten_digit c : to_digit 10 c = if (48 <=? c) && (c <=? 57) then Some (c - 48) else None.
Proof.
  unfold to_digit. destruct (N.leb_spec 48 c), (N.leb_spec c 57); cbn [andb].
  - destruct (N.ltb_spec (c - 48) 10); [reflexivity|lia].
  - destruct (N.leb_spec 97 c), (N.leb_spec c 122); cbn [andb].
    { destruct (N.ltb_spec (c - 87) 10); [lia|reflexivity]. }
    all: destruct (N.leb_spec 65 c), (N.leb_spec c 90); cbn [andb]; try reflexivity; destruct (N.ltb_spec (c - 55) 10); (lia || reflexivity).
  - destruct (N.leb_spec 97 c); [lia|]. destruct (N.leb_spec 65 c); [lia|reflexivity].
  - lia.
Qed.
Definition over (s : str) (acc : N) : Prop := exists ds r, s = ds ++ r /\ Forall (fun c => 48 <= c <= 57) ds /\
  (4294967296 <= Z.of_N acc * 10 ^ Z.of_nat (length ds) + decimal ds)%Z.
Lemma int_error_cases s : forall acc, acc <= U32MAX ->
  (int_error_of U32MAX s acc = IePosOverflow /\ over s acc) \/ (int_error_of U32MAX s acc = IeInvalidDigit /\ ~ over s acc).
Proof.
  unfold U32MAX. induction s as [|c s IH]; intros acc A; cbn [int_error_of].
  - right. split; [reflexivity|]. intros (ds & r & E & _ & L). destruct ds; [|discriminate]. cbn [length decimal] in L. change (10 ^ Z.of_nat 0)%Z with 1%Z in L. lia.
  - rewrite ten_digit. destruct ((48 <=? c) && (c <=? 57)) eqn:D.
    + assert (Cons : over (c :: s) acc <-> over s (acc * 10 + (c - 48)) \/ 4294967295 < acc * 10 + (c - 48)).
      { split.
        - intros (ds & r & E & F & L). destruct ds as [|d ds]; [cbn [length decimal] in L; change (10 ^ Z.of_nat 0)%Z with 1%Z in L; lia|].
          injection E as <- ->. left. exists ds, r. split; [reflexivity|]. split; [now apply Forall_inv_tail in F|]. cbn [length decimal] in L.
          replace (Z.of_nat (S (length ds))) with (Z.of_nat (length ds) + 1)%Z in L by lia. rewrite Z.pow_add_r in L by lia. change (10 ^ 1)%Z with 10%Z in L.
          rewrite N2Z.inj_add, N2Z.inj_mul. nia.
        - intros [(ds & r & -> & F & L)|L].
          + exists (c :: ds), r. split; [reflexivity|]. split; [constructor; auto; lia|]. cbn [length decimal].
            replace (Z.of_nat (S (length ds))) with (Z.of_nat (length ds) + 1)%Z by lia. rewrite Z.pow_add_r by lia. change (10 ^ 1)%Z with 10%Z.
            rewrite N2Z.inj_add, N2Z.inj_mul in L. nia.
          + exists [c], s. split; [reflexivity|]. split; [constructor; auto; lia|]. cbn [length decimal]. change (10 ^ Z.of_nat 1)%Z with 10%Z. change (10 ^ Z.of_nat 0)%Z with 1%Z. lia. }
      cbv zeta. destruct (N.ltb_spec 4294967295 (acc * 10 + (c - 48))) as [L|L].
      * left. split; [reflexivity|]. apply Cons. auto.
      * destruct (IH _ L) as [[E O]|[E O]]; [left|right]; (split; [exact E|]); rewrite Cons; [now left|]. intros [Q|Q]; [contradiction|lia].
    + right. split; [reflexivity|]. intros (ds & r & E & F & L). destruct ds as [|d ds].
      * cbn [length decimal] in L. change (10 ^ Z.of_nat 0)%Z with 1%Z in L. lia.
      * injection E as <- _. apply Forall_inv in F. lia.
Qed.
Lemma over_digits s : over s 0 <-> exists ds r, s = ds ++ r /\ digits ds /\ (4294967296 <= decimal ds)%Z.
Proof.
  split; intros (ds & r & -> & D & L); exists ds, r; (split; [reflexivity|]).
  - split; [split; [|exact D]|lia]. intros ->. cbn in L. lia.
  - split; [apply D|lia].
Qed.
Lemma fault_of s : s <> [] -> forall b, (too_large s <-> over b 0) -> u32_error s = int_error_of U32MAX b 0 ->
  id_fault s (match u32_error s with IeEmpty => lit "Empty" | IeInvalidDigit => lit "InvalidDigit" | IePosOverflow => lit "PosOverflow" end).
Proof.
  intros N b T E. rewrite E. destruct (int_error_cases b 0 ltac:(cbv; discriminate)) as [[-> O]|[-> O]]; right; [left|right]; rewrite T; auto.
Qed.
Lemma u32_fault t : id_fault t (match u32_error t with IeEmpty => lit "Empty" | IeInvalidDigit => lit "InvalidDigit" | IePosOverflow => lit "PosOverflow" end).
Proof.
  destruct t as [|c s]; [left; auto|]. destruct (N.eq_dec c 43) as [->|NC].
  - apply (fault_of (43 :: s) ltac:(discriminate) s); [|reflexivity]. rewrite too_large_sign. symmetry. apply over_digits.
  - apply (fault_of (c :: s) ltac:(discriminate) (c :: s)).
    + rewrite over_digits. split.
      * intros (sign & ds & r & E & I & D & L). destruct I as [<-|[<-|[]]]; [exists ds, r; auto|]. change (lit "+" ++ ds ++ r) with (43 :: ds ++ r) in E. congruence.
      * intros (ds & r & E & D & L). exists [], ds, r. split; [exact E|]. split; [now left|auto].
    + unfold u32_error. destruct c as [|p]; auto. repeat (destruct p; auto). congruence.
Qed.

(** ** Blocks *)
Lemma content_said dbg e : content_says dbg e (content_debug dbg e) (content_message e).
Proof. destruct e; cbn [content_debug content_message]; [apply cs_block; eexists; (split; [apply dec_numeral|reflexivity])|constructor..]. Qed.
Lemma conv_said dbg e : conv_says dbg e (conv_chain dbg e).
Proof.
  induction e as [id|id|id p e IH|id p e IH|[t n]|e]; cbn [conv_chain conv_message].
  - unfold int_error_debug. pose proof (u32_fault id) as F.
    replace (lit "malformed block id: " ++ id ++ lit ": " ++ lit "ParseIntError { kind: " ++ match u32_error id with IeEmpty => lit "Empty" | IeInvalidDigit => lit "InvalidDigit" | IePosOverflow => lit "PosOverflow" end ++ lit " }")
      with (lit "malformed block id: " ++ id ++ lit ": ParseIntError { kind: " ++ match u32_error id with IeEmpty => lit "Empty" | IeInvalidDigit => lit "InvalidDigit" | IePosOverflow => lit "PosOverflow" end ++ lit " }") by reflexivity.
    now constructor.
  - constructor. eexists. split; [apply dec_numeral|reflexivity].
  - constructor; [|exact IH]. eexists. split; [apply dec_numeral|reflexivity].
  - constructor; [|exact IH]. eexists. split; [apply dec_numeral|reflexivity].
  - constructor.
  - constructor. apply content_said.
Qed.
Theorem C83_blocks dbg c e : blocks_try_from c = Err e -> blocks_said dbg c (conv_chain dbg e).
Proof. intros H. exists e. split; [now apply C82_error|apply conv_said]. Qed.
Print Assumptions C83_blocks.

(** ** Layouts and screens *)
Theorem C83_layout dbg l e : parse_raw_layout l = Err e -> layout_said dbg l (layout_debug dbg e) (layout_message e).
Proof.
  intros H. apply C38_error in H as (b & a & r & -> & Ok & [[N ->]|(p & P & NR & NE & ->)]).
  - eapply says_no_parent; eauto.
  - eapply says_parent; eauto.
Qed.
Print Assumptions C83_layout.
Lemma code_fails bc used k name code e : code_under bc used k code -> map_err (SeBlocks name) code = Err e ->
  exists c e', sget k bc = Some c /\ blocks_try_from c = Err e' /\ e = SeBlocks name e'.
Proof.
  intros [[_ ->]|[(_ & _ & ->)|(_ & c & G & ->)]] H; [discriminate..|].
  destruct (blocks_try_from c) as [t|e'|] eqn:B; cbn [map_err] in H; try discriminate. injection H as <-. eauto 6.
Qed.
Theorem C83_screen dbg ln jn fe ve le fab e : screen_from_parsed ln jn fe ve le fab = Err e -> screen_said dbg ve le (screen_chain dbg e).
Proof.
  intros H. apply C67_reads in H. unfold screen_reads in H.
  destruct (parse_raw_layout ve) as [views|l|] eqn:L; cbn [map_err after] in H; [|injection H as ->; cbn [screen_chain]; apply says_screen_layout; now apply C83_layout|discriminate].
  destruct H as (ms & M & H). destruct M as [(y1 & -> & LM & OM)|(b & x & a & bad & E & St & Bad & Before)].
  2:{ destruct bad as [|e'|]; cbn [fails_as] in Bad; [easy| |subst ms; discriminate H]. subst ms. cbn [after] in H. injection H as ->.
      destruct x as [id mb]. unfold more_block_step in St. cbn [fst snd] in St.
      destruct (parse_wo_params (mb_spec mb)) as [sp|ce|] eqn:W; cbn [map_err after] in St; [|injection St as ->|discriminate].
      - destruct St as (code & C & St). destruct code as [t|ce|]; cbn [map_err after] in St; [discriminate| |discriminate].
        assert (X : map_err (SeBlocks (more_block_key id)) (@Err _ blocks ce) = Err e') by (cbn [map_err]; congruence).
        destruct (code_fails _ _ _ _ _ _ C X) as (c & ce' & G & B & ->). cbn [screen_chain]. eapply says_more_block_code; eauto. now apply C83_blocks.
      - cbn [screen_chain]. apply C81_spec_error in W as (ws & W & (b1 & t & a1 & -> & F & [[_ Q]|(c & r & Et & NI & NB & Q)])); [discriminate|]. injection Q as ->.
        cbn [content_message]. eapply says_more_block_spec; eauto. apply in_app_iff. right. now left. }
  assert (SM : so_far (more_block_step (sl_block_containers le)) (or_empty (sl_more_blocks le))).
  { intros b z a E. destruct (OM b z a E) as (y & _ & S). eauto. }
  cbn [after] in H. destruct H as (cs & C & H). destruct C as [(y2 & -> & LC & OC)|(b & x & a & bad & E & St & Bad & Before)].
  2:{ destruct bad as [|e'|]; cbn [fails_as] in Bad; [easy| |subst cs; discriminate H]. subst cs. cbn [after] in H. injection H as ->.
      unfold component_step in St. destruct (from_parser_component x); [discriminate| |]; injection St as ->; cbn [screen_chain];
        (eapply says_component_type; eauto; [];
         unfold component_type_message; cbn [uc_type uc_id]; eexists; split; [apply dec_numeral|reflexivity]). }
  assert (SC : so_far component_step (or_empty (sl_components le))).
  { intros b z a E. destruct (OC b z a E) as (y & _ & S). eauto. }
  cbn [after] in H. destruct H as (raw & es & R & V & H). destruct V as [(y3 & -> & _ & _)|(b & x & a & bad & E & St & Bad & Before)]; [discriminate H|].
  destruct bad as [|e'|]; cbn [fails_as] in Bad; [easy| |subst es; discriminate H]. subst es. cbn [after] in H. injection H as ->.
  destruct St as [(NS & Q)|(ev & k & code & Sf & Cn & Cu & St)].
  - injection Q as ->. cbn [screen_chain]. eapply says_event_type; eauto. unfold event_type_message. cbn [ue_type ue_name]. eexists. split; [apply dec_numeral|reflexivity].
  - destruct code as [t|ce|]; cbn [map_err after] in St; [discriminate| |discriminate].
    assert (X : map_err (SeBlocks k) (@Err _ blocks ce) = Err e') by (cbn [map_err]; congruence).
    destruct (code_fails _ _ _ _ _ _ Cu X) as (c & ce' & G & B & ->). cbn [screen_chain]. eapply says_event_code; eauto. now apply C83_blocks.
Qed.
Print Assumptions C83_screen.

(** ** Views and colours *)
Lemma view_type_faults v e : from_view v = inr e <->
  ((av_type v = 1 \/ 18 < av_type v) /\ e = UnknownViewType (av_type v) (av_id v)) \/
  ((av_type v = 6 \/ av_type v = 16) /\ ic_res_name (av_image v) = None /\ e = ResNameNotPresent (av_id v)).
Proof.
  rewrite (from_view_at _ _ (eq_refl (av_type v))). generalize (av_type v). intros k.
  destruct (type_cases k) as [E|[E|[E|[E|[E|[E|[E|[E|[E|[E|[E|[E|[E|[E|[E|[E|[E|[E|[E|Hk]]]]]]]]]]]]]]]]]]]; [..|rewrite (from_view_big k v Hk)].
  all: try (subst k; cbn [from_view_k]; destruct (ic_res_name (av_image v)); (split; [intros X; try discriminate X|intros [[[X|X] Y]|([X|X] & Y & Z)]; try lia; try discriminate]);
    try (injection X as <-; auto); subst; reflexivity).
  split.
  - intros [= <-]. left. auto.
  - intros [[_ ->]|([X|X] & _)]; [reflexivity|lia|lia].
Qed.
(** what is said about a view of unknown kind or without its image *)
Theorem C83_view_type v e : from_view v = inr e ->
  ((av_type v = 1 \/ 18 < av_type v) /\ counted (lit "unknown view type `") (av_type v) (lit "` on view with id `" ++ av_id v ++ lit "`") (view_type_message e)) \/
  ((av_type v = 6 \/ av_type v = 16) /\ ic_res_name (av_image v) = None /\ view_type_message e = lit "the field res_name on view with id `" ++ av_id v ++
     lit "` is not present when needed as this view is either a FAB or an ImageView").
Proof.
  intros H. apply view_type_faults in H as [[T ->]|(T & N & ->)]; [left|right].
  - split; [exact T|]. eexists. split; [apply dec_numeral|reflexivity].
  - auto.
Qed.
Print Assumptions C83_view_type.
(** a colour is written with eight hexadecimal digits *)
Theorem C83_colour b c : cval (ab_color b) < 2 ^ 32 -> block_category_of b = Err c ->
  exists t, length t = 8%nat /\ incl t (lit "0123456789abcdef") /\ hexnum t = Some (cval (ab_color b)) /\
    unknown_color_message c = lit "color 0x" ++ t ++ lit " does not correlate to any block category".
Proof.
  intros V H. assert (c = ab_color b) as ->.
  { revert H. unfold block_category_of, category_of_color. repeat match goal with |- context [if ?x then _ else _] => destruct x; [discriminate|] end. now intros [= <-]. }
  destruct (C56_display (ab_color b) V) as (t & D & L & I & X & _). exists t. split; [exact L|]. split; [exact I|]. split; [exact X|].
  unfold unknown_color_message. rewrite D. now rewrite <- app_assoc.
Qed.
Print Assumptions C83_colour.

(** ** Projects *)
Lemma in_order_cases {X E A B} (step : list X -> X -> res E A -> Prop) l r (next : list A -> Prop) (e : E) : in_order step l r -> after r next (@Err E B e) ->
  (exists ys, r = Ok ys /\ so_far step l /\ next ys) \/ (exists before x rest, l = before ++ x :: rest /\ step before x (Err e) /\ so_far step before).
Proof.
  intros [(ys & -> & _ & O)|(b & x & a & bad & E0 & St & Bad & Before)] H.
  - left. exists ys. split; [reflexivity|]. split; [|exact H]. intros b z a Q. destruct (O b z a Q) as (y & _ & S). eauto.
  - right. destruct bad as [|e'|]; cbn [fails_as] in Bad; [easy| |subst r; discriminate H]. subst r. cbn [after] in H. injection H as ->. exists b, x, a. auto.
Qed.
Lemma library_cases {A B} name item (a : A) r (next : option A -> Prop) e : library_reads name item a r -> after r next (@Err project_error B e) ->
  (In (li_use_yn item) [lit "Y"; lit "N"] /\ exists o, r = Ok o /\ next o) \/ (~ In (li_use_yn item) [lit "Y"; lit "N"] /\ e = XInvalidUseYn name (li_use_yn item)).
Proof.
  intros [[Y ->]|[[Y ->]|(NY & NN & ->)]] H; cbn [after] in H.
  - left. split; [left; auto|eauto].
  - left. split; [right; left; auto|eauto].
  - right. split; [|now injection H as ->]. intros [Q|[Q|[]]]; congruence.
Qed.
Lemma resource_fails dbg rnd v t files items before it rest e : In (t, files, items)
      [(RImage, option_map rf_images (pp_resource_files v), rs_images (pp_resource v)); (RSound, option_map rf_sounds (pp_resource_files v), rs_sounds (pp_resource v));
       (RFont, option_map rf_fonts (pp_resource_files v), rs_fonts (pp_resource v))] -> items = before ++ it :: rest ->
  so_far (resource_step t (rnd t) files) before -> resource_step t (rnd t) files before it (Err e) -> loading_said dbg rnd v (project_chain dbg e).
Proof.
  intros I E So St. unfold resource_step in St. destruct files as [m|]; [|discriminate]. destruct St as (o & U & St). destruct o as [w|]; [discriminate|]. injection St as ->.
  cbn [project_chain]. eapply says_resource; eauto. exists m. split; [reflexivity|]. destruct U as [[U _]|[_ U]]; auto.
Qed.
Theorem C83_project dbg rnd v e : project_try_from rnd v = Err e -> loading_said dbg rnd v (project_chain dbg e).
Proof.
  intros H. apply C66_reads in H. unfold project_reads in H. cbv zeta in H.
  destruct H as (ss & S & H). apply (in_order_cases _ _ _ _ _ S) in H as [(ys & -> & SS & H)|(b & fe & a & E & St & So)].
  2:{ destruct St as (ve & le & fab & s & P & R & Q). destruct s as [|se|]; cbn [map_err] in Q; [discriminate| |discriminate]. injection Q as ->.
      cbn [project_chain]. eapply says_screen; eauto. apply C67_reads in R. exact (C83_screen dbg _ _ _ _ _ _ _ R). }
  clear S. destruct H as (cv & S & H). apply (in_order_cases _ _ _ _ _ S) in H as [(ys1 & -> & SV & H)|(b & fe & a & E & St & So)].
  2:{ destruct St as (o & U & St). destruct o as [lay|].
      - destruct U as [[_ Q]|[_ G]]; [discriminate|]. destruct (parse_raw_layout lay) as [vs|le|] eqn:L; cbn [map_err after] in St; try discriminate. injection St as ->.
        cbn [project_chain]. eapply says_custom_layout; eauto. now apply C83_layout.
      - injection St as ->. cbn [project_chain]. eapply says_no_layout; eauto. destruct U as [[U _]|[_ U]]; auto. }
  clear S. destruct H as (fb & S & H). apply (library_cases _ _ _ _ _ _ S) in H as [(Yf & o1 & -> & H)|[NY ->]].
  2:{ cbn [project_chain]. eapply (says_use_flag dbg rnd v []); eauto. reflexivity. }
  clear S. destruct H as (am & S & H). apply (library_cases _ _ _ _ _ _ S) in H as [(Ya & o2 & -> & H)|[NY ->]].
  2:{ cbn [project_chain]. eapply (says_use_flag dbg rnd v [_]); eauto; [reflexivity|]. constructor; [exact Yf|constructor]. }
  clear S. destruct H as (gm & S & H). apply (library_cases _ _ _ _ _ _ S) in H as [(Yg & o3 & -> & H)|[NY ->]].
  2:{ cbn [project_chain]. eapply (says_use_flag dbg rnd v [_; _]); eauto; [reflexivity|]. constructor; [exact Yf|]. constructor; [exact Ya|constructor]. }
  clear S. destruct H as (im & S & H). apply (in_order_cases _ _ _ _ _ S) in H as [(ys2 & -> & _ & H)|(b & it & a & E & St & So)].
  2:{ eapply resource_fails; eauto. left. reflexivity. }
  clear S. destruct H as (so & S & H). apply (in_order_cases _ _ _ _ _ S) in H as [(ys3 & -> & _ & H)|(b & it & a & E & St & So)].
  2:{ eapply resource_fails; eauto. right. left. reflexivity. }
  clear S. destruct H as (fo & S & H). apply (in_order_cases _ _ _ _ _ S) in H as [(ys4 & -> & _ & H)|(b & it & a & E & St & So)].
  2:{ eapply resource_fails; eauto. right. right. left. reflexivity. }
  destruct H as (compat & _ & H). discriminate.
Qed.
Print Assumptions C83_project.
(** the line for the layout of the second activity, a block with a wrong argument inside a substack, and the cause *)
Definition quoted (s : str) : str := 34 :: s ++ [34].
Example C83_example :
  (match load1 {| sl_name := lit "MainActivity";
       sl_block_containers := [(lit "say_moreBlock", [rb 10 (-1) (lit "if") (lit "if %b") [lit "true"] 11 (-1) (lit "c") []; rb 11 (-1) (lit "wait") (lit "wait %d") [lit "soon"] (-1) (-1) (lit " ") []])];
       sl_variables := None; sl_list_variables := None; sl_components := None; sl_events := None;
       sl_more_blocks := Some [(lit "say", {| mb_id := lit "say"; mb_spec := lit "say" |})] |} with Err e => screen_chain quoted e | _ => [] end)
  = [lit "error while parsing the blocks of container `say_moreBlock`"; lit "error while parsing substack1 of block with id `10`";
     lit "error while parsing the block content: InvalidNumberArgument { value: " ++ quoted (lit "soon") ++ lit " }";
     lit "invalid argument given on a number-typed parameter: soon"] /\
  conv_chain quoted (MalformedBlockId (lit "4294967296x")) = [lit "malformed block id: 4294967296x: ParseIntError { kind: PosOverflow }"] /\
  conv_chain quoted (MalformedBlockId (lit "4294967295x")) = [lit "malformed block id: 4294967295x: ParseIntError { kind: InvalidDigit }"] /\
  conv_chain quoted (MalformedBlockId []) = [lit "malformed block id: : ParseIntError { kind: Empty }"].
Proof. repeat split; vm_compute; reflexivity. Qed.

(** ** C84: putting a resource *)
(** The text for a missing file names it. Missing for the full claim: the text for an id that is taken, see [C84_refuted]. *)
Theorem C84_partial dbg ex id w t r p : put_resource ex id w t r = Err (AddFileDoesntExist p) ->
  w = WPath p /\ ex p = false /\ addition_message dbg (AddFileDoesntExist p) = lit "file `" ++ dbg p ++ lit "` does not exist".
Proof.
  intros H. apply (proj1 (proj1 (proj2 (C48_outcomes ex id w t r)) _)) in H as [_ [(q & [= <-] & -> & E)|(Q & _)]]; [auto|discriminate].
Qed.
Print Assumptions C84_partial.
(** the text for an id that is taken says 0, whatever the id *)
Theorem C84_exact dbg ex id w t r i : put_resource ex id w t r = Err (IdTaken i) ->
  addition_message dbg (IdTaken i) = lit "resource id `" ++ id ++ lit "` is already taken" <-> id = lit "0".
Proof.
  intros _. split; [|intros ->; reflexivity]. cbn [addition_message]. intros H.
  change (lit "resource id `0` is already taken") with (lit "resource id `" ++ lit "0" ++ lit "` is already taken") in H.
  apply app_inv_head in H. now apply app_inv_tail in H.
Qed.
Print Assumptions C84_exact.
Theorem C84_refuted dbg : exists ex id w t r, exists i, put_resource ex id w t r = Err (IdTaken i) /\
  addition_message dbg (IdTaken i) <> lit "resource id `" ++ id ++ lit "` is already taken".
Proof.
  exists (fun _ => true), (lit "logo"), (WPath (lit "/logo.png")), RImage,
    {| re_images := [(lit "logo", WPath (lit "/old.png"))]; re_sounds := []; re_fonts := [] |}, (lit "logo").
  split; [reflexivity|]. discriminate.
Qed.
Print Assumptions C84_refuted.
Example C84_example : exists e, put_resource (fun _ => true) (lit "logo") (WPath (lit "/logo.png")) RSound
    {| re_images := [(lit "logo", WPath (lit "/old.png"))]; re_sounds := []; re_fonts := [] |} = Err e /\
  addition_message quoted e = lit "resource id `0` is already taken".
Proof. eexists. split; vm_compute; reflexivity. Qed.
