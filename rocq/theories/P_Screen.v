(** Properties C41-C45: components, events and screens of the API (/repo/src/api/component.rs, /repo/src/api/screen.rs,
    [to_screen_logic] and [view_name_to_logic] in /repo/src/api/mod.rs). *)
From Coq Require Import Lia.
From Verif Require Import Base Str Dec Flt M_File M_Color M_View M_Logic A_Block A_View A_Screen A_Project SpecBlock SpecScreen
  BlockProofs BlockTripProofs ScreenProofs.

(** ** C41 *)
Theorem C41_round_trip k id :
  from_parser_component (into_parser_component k id) = Ok k /\ co_id (into_parser_component k id) = id.
Proof. destruct k; split; reflexivity. Qed.
Print Assumptions C41_round_trip.

Lemma component_cases c :
  (exists i k, nth_error (all_kinds (co_param1 c)) i = Some k /\ co_type c = N.of_nat i + 1 /\ from_parser_component c = Ok k) \/
  (~ 1 <= co_type c <= 21 /\ from_parser_component c = Err {| uc_type := co_type c; uc_id := co_id c |}).
Proof.
  unfold from_parser_component. destruct (co_type c) as [|p]; [right; split; [lia|reflexivity]|].
  do 5 (try destruct p as [p|p|]);
    first [right; split; [lia|reflexivity]
          |left; let go i := (exists i; eexists; repeat split; reflexivity) in
           first [go 0%nat|go 1%nat|go 2%nat|go 3%nat|go 4%nat|go 5%nat|go 6%nat|go 7%nat|go 8%nat|go 9%nat|go 10%nat|go 11%nat
                 |go 12%nat|go 13%nat|go 14%nat|go 15%nat|go 16%nat|go 17%nat|go 18%nat|go 19%nat|go 20%nat]].
Qed.
(** which kind belongs to which number, and where its parameter is *)
Theorem C41_numbers c k : from_parser_component c = Ok k <->
  exists i, nth_error (all_kinds (co_param1 c)) i = Some k /\ co_type c = N.of_nat i + 1.
Proof.
  destruct (component_cases c) as [(i & k' & N & T & F)|[T F]].
  - split.
    + intros H. exists i. split; [congruence|exact T].
    + intros (j & N' & T'). assert (i = j) as -> by lia. congruence.
  - split; [congruence|]. intros (i & N & E). exfalso. apply T.
    assert (i < 21)%nat by (apply (nth_error_Some (all_kinds (co_param1 c))); congruence). lia.
Qed.
Print Assumptions C41_numbers.
Theorem C41_unknown c :
  (~ 1 <= co_type c <= 21 <-> exists e, from_parser_component c = Err e) /\
  (forall e, from_parser_component c = Err e -> uc_type e = co_type c /\ uc_id e = co_id c) /\
  from_parser_component c <> Panic.
Proof.
  destruct (component_cases c) as [(i & k & N & T & F)|[T F]]; rewrite F.
  - assert (i < 21)%nat by (apply (nth_error_Some (all_kinds (co_param1 c))); congruence).
    repeat split; try discriminate; [intros H1; exfalso; apply H1; lia|intros (? & ?); discriminate].
  - split; [split; [eauto|intros _; exact T]|]. split; [|discriminate]. intros e E. injection E as <-. split; reflexivity.
Qed.
Print Assumptions C41_unknown.
(** a raw component is written back unchanged iff its unused parameters are empty *)
Theorem C41_exact c k : from_parser_component c = Ok k ->
  (into_parser_component k (co_id c) = c <->
   co_param2 c = [] /\ co_param3 c = [] /\ (has_param (co_type c) \/ co_param1 c = [])).
Proof.
  intros H. apply C41_numbers in H as (i & N & T). unfold has_param. rewrite T.
  do 21 (destruct i as [|i]; [cbn in N; injection N as <-; destruct c as [id p1 p2 p3 ty]; cbn in *; subst ty;
    unfold component_new_empty, component_new_1param; cbn; split;
      [intros E; injection E as <- || idtac; intros; subst; repeat split; auto; (left; lia) || (right; auto)
      |intros (-> & -> & [D|D]); try lia; subst; reflexivity]|]).
  destruct i; discriminate N.
Qed.
Print Assumptions C41_exact.

(** an interstitial ad, a database and a file picker; a vibrator with a leftover parameter *)
Example C41_example :
  map (fun k => from_parser_component (into_parser_component k (lit "x1"))) [CkInterstitialAd; CkFirebaseDatabase (lit "users/a"); CkFilePicker (lit "*/*")]
    = [Ok CkInterstitialAd; Ok (CkFirebaseDatabase (lit "users/a")); Ok (CkFilePicker (lit "*/*"))] /\
  from_parser_component (component_new (lit "v") (lit "left") [] [] 4) = Ok CkVibrator /\
  into_parser_component CkVibrator (lit "v") <> component_new (lit "v") (lit "left") [] [] 4 /\
  from_parser_component (component_new (lit "v") [] [] [] 22) = Err {| uc_type := 22; uc_id := lit "v" |} /\
  into_parser_component (CkFirebaseStorage (lit "p")) (lit "s") = component_new (lit "s") (lit "p") [] [] 14.
Proof. vm_compute. repeat split; discriminate. Qed.

(** ** C42 *)
Theorem C42_round_trip e : exists e', event_try_from (fst (into_parser_event e)) = Ok e' /\
  ae_name e' = ae_name e /\ ae_type e' = ae_type e /\ ae_code e' = [] /\ snd (into_parser_event e) = ae_code e.
Proof. destruct e as [n [id|id ct|] c]; eexists; repeat split. Qed.
Print Assumptions C42_round_trip.
(** the raw event stands for the event *)
Theorem C42_reading r : 
  (forall e, event_try_from r = Ok e <-> stands_for r e /\ ae_code e = []) /\
  ((exists u, event_try_from r = Err u) <-> ~ (ev_type r = 1 \/ ev_type r = 2 \/ ev_type r = 3)) /\
  (forall u, event_try_from r = Err u -> ue_name u = ev_name r /\ ue_type u = ev_type r) /\ event_try_from r <> Panic.
Proof.
  unfold stands_for, event_try_from, event_type_from. destruct r as [n ty id tt]; cbn.
  assert (D : ty = 1 \/ ty = 2 \/ ty = 3 \/ ~ (ty = 1 \/ ty = 2 \/ ty = 3)) by lia.
  destruct D as [->|[->|[->|D]]].
  1-3: cbn [bind]; (split; [|repeat split; try discriminate; [intros (u & ?); discriminate|intros H; exfalso; apply H; tauto]]);
    intros [n' t' c']; cbn; (split; [intros [= <- <- <-]; tauto|intros ((-> & H) & ->)]);
    destruct H as [[? ->]|[[? ->]|[? ->]]]; try discriminate; reflexivity.
  assert (E : match ty with 1 => Ok (EtView id) | 2 => Ok (EtComponent id tt) | 3 => Ok EtActivity | _ => Err {| ue_name := n; ue_type := ty |} end
              = Err {| ue_name := n; ue_type := ty |}).
  { destruct ty as [|[[p|p|]|[p|p|]|]]; try reflexivity; exfalso; apply D; tauto. }
  rewrite E. cbn [bind]. split; [|split; [|split; [|discriminate]]].
  - intros [n' t' c']; cbn. split; [discriminate|]. intros ((_ & H) & _). tauto.
  - split; [intros _; exact D|eauto].
  - intros u H. injection H as <-. split; reflexivity.
Qed.
Print Assumptions C42_reading.
(** which raw events are written back unchanged *)
Theorem C42_raw r e : event_try_from r = Ok e ->
  (fst (into_parser_event e) = r <->
   (ev_type r = 1 /\ ev_target_type r = 0) \/ ev_type r = 2 \/ (ev_type r = 3 /\ ev_target_id r = [] /\ ev_target_type r = 0)).
Proof.
  intros H. apply C42_reading in H as ((N & H) & _). destruct r as [n ty id tt], e as [n' t' c']; cbn in *. subst n'.
  destruct H as [[-> ->]|[[-> ->]|[-> ->]]]; cbn; (split;
    [intros E; inversion E; subst; auto 6
    |intros [[? ->]|[?|(? & -> & ->)]]; try discriminate; reflexivity]).
Qed.
Print Assumptions C42_raw.
(** where the blocks of an event and of a moreblock are kept *)
Theorem C42_container e k id : (get_block_container_id e = k <-> container_name e k) /\ more_block_container id = id ++ lit "_moreBlock".
Proof.
  split; [|reflexivity]. unfold get_block_container_id, container_id, container_name. destruct (ae_type e); [split; congruence|split; congruence|].
  destruct (str_eqb_spec (ae_name e) ON_CREATE) as [E|E].
  - rewrite E. change (ON_CREATE ++ lit "_initializeLogic") with (lit "onCreate_initializeLogic"). split.
    + intros <-. left. auto.
    + intros [[_ ->]|[H _]]; [reflexivity|]. now elim H.
  - split; [intros <-; right; auto|]. intros [[H _]|[_ ->]]; [now elim E|reflexivity].
Qed.
Print Assumptions C42_container.
(** [apply_to_parser_event] on any event, not only on the fresh one of [into_parser_event]: the name stays, the kind and
    what the kind has are set, the rest stays *)
Theorem C42_apply t e r : apply_event_type t e = r <->
  ev_name r = ev_name e /\
  match t with
  | EtView id => ev_type r = 1 /\ ev_target_id r = id /\ ev_target_type r = ev_target_type e
  | EtComponent id k => ev_type r = 2 /\ ev_target_id r = id /\ ev_target_type r = k
  | EtActivity => ev_type r = 3 /\ ev_target_id r = ev_target_id e /\ ev_target_type r = ev_target_type e
  end.
Proof.
  destruct e as [n ty id tt], r as [n' ty' id' tt'], t as [i|i k|]; cbn; (split; [intros [= <- <- <- <-]; auto|intros (-> & -> & -> & ->); reflexivity]).
Qed.
Print Assumptions C42_apply.
Theorem C42_applied t e : event_type_from (apply_event_type t e) = Ok t.
Proof. now destruct t. Qed.
Print Assumptions C42_applied.

Definition ev (n : string) (t : event_type) (c : blocks) : aevent := {| ae_name := lit n; ae_type := t; ae_code := c |}.
Definition rawev (n : string) (t : N) (id : string) (tt : N) : event :=
  {| ev_name := lit n; ev_type := t; ev_target_id := lit id; ev_target_type := tt |}.
Example C42_example :
  fst (into_parser_event (ev "onError" (EtComponent (lit "speech1") 19) [])) = rawev "onError" 2 "speech1" 19 /\
  event_try_from (rawev "onClick" 1 "button1" 3) = Ok (ev "onClick" (EtView (lit "button1")) []) /\
  fst (into_parser_event (ev "onClick" (EtView (lit "button1")) [])) = rawev "onClick" 1 "button1" 0 /\
  event_try_from (rawev "onClick" 5 "button1" 3) = Err {| ue_name := lit "onClick"; ue_type := 5 |} /\
  get_block_container_id (ev "onBackPressed" EtActivity []) = lit "onBackPressed_onBackPressed" /\
  get_block_container_id (ev "onClick" (EtView (lit "button1")) []) = lit "button1_onClick" /\
  apply_event_type (EtView (lit "b")) (rawev "onClick" 2 "speech1" 19) = rawev "onClick" 1 "b" 19 /\
  apply_event_type EtActivity (rawev "onClick" 2 "speech1" 19) = rawev "onClick" 3 "speech1" 19.
Proof. vm_compute. repeat split. Qed.

(** ** C43 *)
Lemma Forall2_imp {A B} (P Q : A -> B -> Prop) l m : (forall a b, P a b -> Q a b) -> Forall2 P l m -> Forall2 Q l m.
Proof. intros H. induction 1; constructor; auto. Qed.
Lemma take_events_stand l bc es : take_events l bc = Ok es -> Forall2 stands_for l es.
Proof.
  intros H. apply take_events_iff in H as [H _]. revert H. apply Forall2_imp. intros r e H. apply C42_reading in H as [H _]. exact H.
Qed.
Lemma from_parsed_inv ln jn fe ve le fab s : screen_from_parsed ln jn fe ve le fab = Ok s ->
  exists ms bc, take_more_blocks (or_empty (sl_more_blocks le)) (sl_block_containers le) = Ok (ms, bc) /\
    take_events (or_empty (with_on_create le)) bc = Ok (sc_events s) /\ sc_more_blocks s = scollect ms.
Proof.
  unfold screen_from_parsed. intros H. apply bind_ok in H as (views & _ & H). apply bind_ok in H as ([ms bc] & M & H).
  apply bind_ok in H as (cs & _ & H). apply bind_ok in H as (es & K & H). injection H as <-. exists ms, bc. auto.
Qed.
Lemma smem_keys {V} k (m : smap V) : smem k m = true <-> In k (map fst m).
Proof.
  change (smem k m) with (match sget k m with Some _ => true | None => false end). split.
  - destruct (sget k m) eqn:E; [|discriminate]. intros _. apply sget_some_in in E. apply in_map_iff. now exists (k, v).
  - intros I. destruct (sget k m) eqn:E; [reflexivity|]. exfalso.
    induction m as [|[x v] m IH]; [exact I|]. cbn in E, I. destruct (str_eqb_spec k x) as [->|N]; [discriminate|].
    destruct I as [I|I]; [congruence|]. now apply IH.
Qed.
Lemma event_code_read ln jn fe ve le fab s a e b : screen_from_parsed ln jn fe ve le fab = Ok s -> sc_events s = a ++ e :: b ->
  blocks_try_from (rd (map more_block_container (map fst (or_empty (sl_more_blocks le))) ++ map get_block_container_id a)
     (get_block_container_id e) (sl_block_containers le)) = Ok (ae_code e).
Proof.
  intros H E. apply from_parsed_inv in H as (ms & bc & M & T & _). apply take_more_blocks_iff in M as (M1 & _ & ->).
  apply take_events_iff in T as [_ T]. apply reads_keys in M1. rewrite <- M1.
  rewrite (grab_each get_block_container_id (fun c a => blocks_try_from c = Ok (ae_code a))) in T. specialize (T _ _ _ E).
  replace (map (fun r => more_block_container (fst r)) ms) with (map more_block_container (map fst ms)) in T by (rewrite map_map; reflexivity).
  revert T. unfold rd. rewrite grab_left. unfold mem. rewrite existsb_app.
  destruct (existsb _ (map get_block_container_id a)), (existsb _ (map more_block_container (map fst ms))); cbn [orb]; auto.
Qed.

(** The events of a screen are those of the raw pool in order, after one [onCreate] event iff the container of that
    event is there; the code of the added event is read from it. *)
Theorem C43_events ln jn fe ve le fab s : screen_from_parsed ln jn fe ve le fab = Ok s ->
  (In (lit "onCreate_initializeLogic") (map fst (sl_block_containers le)) ->
     exists code c rest, sc_events s = {| ae_name := lit "onCreate"; ae_type := EtActivity; ae_code := code |} :: rest /\
       Forall2 stands_for (or_empty (sl_events le)) rest /\
       sget (lit "onCreate_initializeLogic") (sl_block_containers le) = Some c /\ blocks_try_from c = Ok code) /\
  (~ In (lit "onCreate_initializeLogic") (map fst (sl_block_containers le)) -> Forall2 stands_for (or_empty (sl_events le)) (sc_events s)).
Proof.
  intros H. assert (RD := fun e b => event_code_read _ _ _ _ _ _ _ [] e b H).
  apply from_parsed_inv in H as (ms & bc & M & T & _).
  apply take_events_stand in T. unfold with_on_create in T. change INITIALIZE with (lit "onCreate_initializeLogic") in T.
  split; intros I.
  - apply smem_keys in I. rewrite I in T. cbn [or_empty] in T. inversion T as [|? e ? rest S R E1 E2]; subst. symmetry in E2.
    destruct S as [N S]. cbn in N, S. destruct S as [[? _]|[[? _]|[_ S]]]; try discriminate.
    specialize (RD e rest E2). destruct e as [n t c]. cbn in N, S. subst n t. cbn [map app ae_code] in RD. rewrite app_nil_r in RD.
    unfold rd in RD. rewrite (proj2 (mem_not _ _)) in RD.
    2:{ rewrite in_map_iff. intros (x & E & _). now apply ends_initialize in E. }
    change (smem (lit "onCreate_initializeLogic") (sl_block_containers le))
      with (match sget INITIALIZE (sl_block_containers le) with Some _ => true | None => false end) in I.
    destruct (sget INITIALIZE (sl_block_containers le)) as [x|] eqn:G; [|discriminate].
    change (blocks_try_from (or_empty (sget INITIALIZE (sl_block_containers le))) = Ok c) in RD. rewrite G in RD.
    exists c, x, rest. split; [first [reflexivity|exact E2]|]. split; [destruct (sl_events le); exact R|]. split; [exact G|exact RD].
  - destruct (smem (lit "onCreate_initializeLogic") (sl_block_containers le)) eqn:E; [apply smem_keys in E; contradiction|exact T].
Qed.
Print Assumptions C43_events.

(** one more event than the pool, iff the container exists *)
Theorem C43_count ln jn fe ve le fab s : screen_from_parsed ln jn fe ve le fab = Ok s ->
  (length (sc_events s) = S (length (or_empty (sl_events le))) <-> In (lit "onCreate_initializeLogic") (map fst (sl_block_containers le))) /\
  (length (sc_events s) = length (or_empty (sl_events le)) <-> ~ In (lit "onCreate_initializeLogic") (map fst (sl_block_containers le))).
Proof.
  intros H. apply C43_events in H as [H1 H2].
  destruct (in_dec (list_eq_dec N.eq_dec) (lit "onCreate_initializeLogic") (map fst (sl_block_containers le))) as [I|I].
  - destruct (H1 I) as (code & c & rest & -> & F & _). apply Forall2_len in F. cbn. split; split; intros; try tauto; lia.
  - apply Forall2_len in H2; [|exact I]. split; split; intros; try tauto; lia.
Qed.
Print Assumptions C43_count.

(** The code of an event is what its container holds, unless the container belongs to a moreblock or an earlier event. *)
Theorem C43_code ln jn fe ve le fab s a e b k : screen_from_parsed ln jn fe ve le fab = Ok s -> sc_events s = a ++ e :: b -> container_name e k ->
  let taken := (exists o, In o a /\ container_name o k) \/ In k (map (fun kv => fst kv ++ lit "_moreBlock") (or_empty (sl_more_blocks le))) in
  (taken -> ae_code e = []) /\
  (~ taken -> match sget k (sl_block_containers le) with Some c => blocks_try_from c = Ok (ae_code e) | None => ae_code e = [] end).
Proof.
  intros H E K taken. pose proof (event_code_read _ _ _ _ _ _ _ _ _ _ H E) as R. apply (C42_container e k []) in K. rewrite K in R.
  assert (TK : taken <-> In k (map more_block_container (map fst (or_empty (sl_more_blocks le))) ++ map get_block_container_id a)).
  { unfold taken. rewrite in_app_iff, map_map, (in_map_iff get_block_container_id).
    change (map (fun x => more_block_container (fst x))) with (map (fun kv : str * more_block => fst kv ++ lit "_moreBlock")).
    split.
    - intros [(o & I & C)|T]; [right|now left]. exists o. split; [now apply (C42_container o k [])|exact I].
    - intros [T|(o & C & I)]; [now right|left]. exists o. split; [exact I|now apply (C42_container o k [])]. }
  unfold rd in R. split; intros T.
  - apply TK in T. apply mem_in in T. rewrite T in R. cbn in R. congruence.
  - rewrite (proj2 (mem_not _ _)) in R by tauto. destruct (sget k (sl_block_containers le)) as [c|]; cbn in R; congruence.
Qed.
Print Assumptions C43_code.

(** Converting back: no [onCreate] event, the other events in order, and exactly the containers of the events (of
    [onCreate] as well) and moreblocks. *)
Theorem C43_back s lg : screen_logic_of s = Ok lg ->
  (forall r, In r (or_empty (sl_events lg)) -> ev_name r <> lit "onCreate") /\
  Forall2 stands_for (or_empty (sl_events lg)) (filter (fun e => negb (str_eqb (ae_name e) (lit "onCreate"))) (sc_events s)) /\
  (forall k, In k (map fst (sl_block_containers lg)) <->
     (exists e, In e (sc_events s) /\ container_name e k) \/ In k (map (fun kv => fst kv ++ lit "_moreBlock") (sc_more_blocks s))).
Proof.
  intros H. apply screen_logic_iff in H as (cs & H & ->). cbn [logic_with sl_events or_empty sl_block_containers]. split; [|split].
  - intros r I. unfold raw_events in I. apply in_map_iff in I as (e & <- & I). apply filter_In in I as [_ I]. rewrite raw_event_name.
    unfold not_on_create in I. destruct (str_eqb_spec (ae_name e) ON_CREATE) as [E|E]; [discriminate|exact E].
  - unfold raw_events, not_on_create. change (lit "onCreate") with ON_CREATE. generalize (filter (fun e => negb (str_eqb (ae_name e) ON_CREATE)) (sc_events s)).
    induction l as [|e l IH]; cbn; constructor; auto. destruct e as [n [id|id ct|] c]; unfold stands_for; cbn; tauto.
  - intros k. rewrite <- smem_keys, mem_written by exact H. unfold cells. rewrite map_app, in_app_iff, !map_map.
    change (map (fun x => fst (mcell x))) with (map (fun kv : str * amore_block => fst kv ++ lit "_moreBlock")).
    rewrite (in_map_iff (fun x => fst (ecell x))). split.
    + intros [(e & E & I)|I]; [left|now right]. exists e. split; [exact I|now apply (C42_container e k [])].
    + intros [(e & I & E)|I]; [left|now right]. exists e. split; [now apply (C42_container e k [])|exact I].
Qed.
Print Assumptions C43_back.
(** the container of an event holds the code of the event, unless a later event or a moreblock has the same container *)
Theorem C43_back_code s lg a e b k : screen_logic_of s = Ok lg -> sc_events s = a ++ e :: b -> container_name e k ->
  (forall o, In o b -> ~ container_name o k) -> ~ In k (map (fun kv => fst kv ++ lit "_moreBlock") (sc_more_blocks s)) ->
  exists c, sget k (sl_block_containers lg) = Some c /\ blocks_into (ae_code e) = Ok c.
Proof.
  intros H E K NB NM. apply screen_logic_iff in H as (cs & H & ->). cbn [logic_with sl_block_containers].
  apply (C42_container e k []) in K. unfold cells in *. rewrite E, map_app in *. cbn [map] in *. rewrite <- app_assoc in *. cbn [app] in *.
  apply Forall2_app_inv_l in H as (ca & cb & Ha & Hb & ->). inversion Hb as [|? c ? cb' H1 H2]; subst.
  exists c. split; [|exact H1]. rewrite kbc_app by (eapply Forall2_len; eauto).
  change (kbc (ecell e :: map ecell b ++ map mcell (sc_more_blocks s)) (c :: cb')) with ((get_block_container_id e, c) :: kbc (map ecell b ++ map mcell (sc_more_blocks s)) cb').
  apply ins_all_last. rewrite kbc_keys by exact H2. rewrite map_app, in_app_iff, !map_map. intros [I|I].
  - apply in_map_iff in I as (o & E' & I). apply (NB o I). now apply (C42_container o _ []).
  - apply NM. exact I.
Qed.
Print Assumptions C43_back_code.
(** reading and writing back: when the container is there afterwards *)
Theorem C43_kept ln jn fe ve le fab s lg : screen_from_parsed ln jn fe ve le fab = Ok s -> screen_logic_of s = Ok lg ->
  (In (lit "onCreate_initializeLogic") (map fst (sl_block_containers lg)) <->
   In (lit "onCreate_initializeLogic") (map fst (sl_block_containers le)) \/
   exists r e, In r (or_empty (sl_events le)) /\ stands_for r e /\ container_name e (lit "onCreate_initializeLogic")).
Proof.
  intros H K. apply C43_back in K as (_ & _ & K). rewrite K. clear K. apply C43_events in H as [H1 H2].
  assert (NM : ~ In (lit "onCreate_initializeLogic") (map (fun kv => fst kv ++ lit "_moreBlock") (sc_more_blocks s))).
  { rewrite in_map_iff. intros (x & E & _). now apply (ends_initialize (fst x)). }
  assert (SN : forall r e e', stands_for r e -> stands_for r e' -> ae_name e = ae_name e' /\ ae_type e = ae_type e').
  { intros r e e' [N S] [N' S']. split; [congruence|]. destruct S as [[? S]|[[? S]|[? S]]], S' as [[? S']|[[? S']|[? S']]]; congruence. }
  assert (CN : forall e e' k, ae_name e = ae_name e' -> ae_type e = ae_type e' -> container_name e k -> container_name e' k).
  { intros e e' k E1 E2. unfold container_name. now rewrite E1, E2. }
  assert (FW : forall l m, Forall2 stands_for l m -> (exists e, In e m /\ container_name e (lit "onCreate_initializeLogic")) <->
    exists r e, In r l /\ stands_for r e /\ container_name e (lit "onCreate_initializeLogic")).
  { induction 1 as [|r e l m S F IH]; [split; [intros (? & [] & _)|intros (? & ? & [] & _)]|]. split.
    - intros (x & [<-|I] & C); [exists r, e; cbn; auto|]. destruct (proj1 IH) as (r' & e' & I' & S' & C'); [now exists x|]. exists r', e'. cbn. auto.
    - intros (r' & e' & [->|I] & S' & C).
      + exists e. split; [now left|]. destruct (SN _ _ _ S' S). now apply (CN e' e).
      + destruct (proj2 IH) as (x & Ix & Cx); [now exists r', e'|]. exists x. cbn. auto. }
  destruct (in_dec (list_eq_dec N.eq_dec) (lit "onCreate_initializeLogic") (map fst (sl_block_containers le))) as [I|I].
  - destruct (H1 I) as (code & c & rest & -> & _). split; [auto|]. intros _. left. eexists. split; [now left|]. cbn. left. auto.
  - specialize (H2 I). rewrite (FW _ _ H2). tauto.
Qed.
Print Assumptions C43_kept.

(** a screen with a click event, an [onCreate] container and a moreblock *)
Definition green := color_of_u32 0xFF5CB722.
Definition raw_toast (text : string) : block :=
  {| bl_color := green; bl_id := lit "10"; bl_next_block := -1; bl_op_code := lit "toast"; bl_parameters := [lit text]; bl_spec := lit "Toast %s";
     bl_sub_stack1 := -1; bl_sub_stack2 := -1; bl_type := lit " "; bl_type_name := [] |}.
Definition toast (text : string) : ablock :=
  MkBlock None None green (lit "toast") [SText (lit "Toast"); SParam (ArgString None (AValue (lit text)))] TRegular.
Definition raw1 (containers : smap block_container) (events : list event) : screen_logic :=
  {| sl_name := lit "MainActivity"; sl_block_containers := containers; sl_variables := None; sl_list_variables := None; sl_components := None;
     sl_events := Some events; sl_more_blocks := Some [(lit "say", {| mb_id := lit "say"; mb_spec := lit "say %s.what" |})] |}.
Definition fe1 : file_item :=
  {| fi_filename := lit "main"; fi_type := FtActivity; fi_keyboard := KbHidden;
     fi_options := {| ao_toolbar := true; ao_fullscreen := false; ao_drawer := true; ao_fab := false |}; fi_orientation := OrBoth; fi_theme := ThDefault |}.
Definition load1 (le : screen_logic) : res screen_error screen := screen_from_parsed (lit "main") (lit "MainActivity") fe1 [] le None.
Definition raw1_full : screen_logic :=
  raw1 [(lit "button1_onClick", [raw_toast "click"]); (lit "onCreate_initializeLogic", [raw_toast "hi"]); (lit "say_moreBlock", [raw_toast "said"])]
       [rawev "onClick" 1 "button1" 0; rawev "onBackPressed" 3 "" 0].
Example C43_example :
  rmap sc_events (load1 raw1_full) =
    Ok [ev "onCreate" EtActivity [toast "hi"]; ev "onClick" (EtView (lit "button1")) [toast "click"]; ev "onBackPressed" EtActivity []] /\
  rmap (fun s => map (fun kv => am_code (snd kv)) (sc_more_blocks s)) (load1 raw1_full) = Ok [[toast "said"]] /\
  (* no container: no event *)
  rmap sc_events (load1 (raw1 [] [rawev "onClick" 1 "button1" 0])) = Ok [ev "onClick" (EtView (lit "button1")) []] /\
  match load1 raw1_full with
  | Ok s => rmap (fun lg => (sl_events lg, map fst (sl_block_containers lg), sget (lit "onCreate_initializeLogic") (sl_block_containers lg))) (screen_logic_of s) =
      Ok (Some [rawev "onClick" 1 "button1" 0; rawev "onBackPressed" 3 "" 0],
          [lit "onCreate_initializeLogic"; lit "button1_onClick"; lit "onBackPressed_onBackPressed"; lit "say_moreBlock"], Some [raw_toast "hi"])
  | _ => False
  end.
Proof. repeat split; vm_compute; reflexivity. Qed.

(** ** C44 *)
Lemma capital_ascii c : capital c = to_ascii_uppercase c.
Proof.
  unfold capital, to_ascii_uppercase, lower, upper. destruct ((97 <=? c) && (c <=? 122)) eqn:E.
  - assert (D : 97 <= c <= 122) by lia. clear E.
    assert (X : exists i, (i < 26)%nat /\ c = 97 + N.of_nat i) by (exists (N.to_nat (c - 97)); lia). destruct X as (i & L & ->).
    do 26 (destruct i as [|i]; [reflexivity|]). lia.
  - assert (D : c < 97 \/ 122 < c) by lia. clear E.
    change (find (fun p => c =? fst p) (combine (lit "abcdefghijklmnopqrstuvwxyz") (lit "ABCDEFGHIJKLMNOPQRSTUVWXYZ")))
      with (find (fun p => c =? fst p) (map (fun i => (97 + N.of_nat i, 65 + N.of_nat i)) (seq 0 26))).
    destruct (find _ _) as [p|] eqn:F; [|reflexivity]. exfalso. apply find_some in F as [I F]. apply in_map_iff in I as (i & <- & I). apply in_seq in I. cbn [fst] in F. apply N.eqb_eq in F. lia.
Qed.
Lemma logic_chars_words s : forall cap, logic_chars cap s =
  match split_on 95 s with [] => [] | w :: r => (if cap then capitalised w else w) ++ concat (map capitalised r) end.
Proof.
  induction s as [|c s IH]; intros cap; [destruct cap; reflexivity|]. cbn [logic_chars split_on]. unfold UNDERSCORE.
  destruct (c =? 95) eqn:E.
  - rewrite IH. destruct (split_on 95 s) as [|w r]; destruct cap; reflexivity.
  - destruct (split_on 95 s) as [|w r] eqn:S; [destruct s; [discriminate|]; cbn in S; destruct (n =? 95); [discriminate|destruct (split_on 95 s); discriminate]|].
    destruct cap; rewrite IH; cbn [capitalised app]; [rewrite capital_ascii|]; reflexivity.
Qed.
(** the words between the underscores, each with a capital, and [Activity] *)
Theorem C44_words s : view_name_to_logic s = concat (map capitalised (split_on 95 s)) ++ lit "Activity".
Proof. unfold view_name_to_logic. rewrite logic_chars_words. destruct (split_on 95 s); reflexivity. Qed.
Print Assumptions C44_words.
Theorem C44_no_underscore s : ~ In 95 (view_name_to_logic s).
Proof.
  unfold view_name_to_logic. rewrite in_app_iff. intros [H|H]; [|cbn in H; intuition discriminate].
  revert H. generalize true. induction s as [|c s IH]; intros cap; cbn; [auto|]. destruct (c =? UNDERSCORE) eqn:E; [apply IH|]. unfold UNDERSCORE in E.
  destruct cap; cbn; (intros [H|H]; [|now apply IH in H]); [|lia].
  unfold to_ascii_uppercase in H. destruct ((97 <=? c) && (c <=? 122)) eqn:F; lia.
Qed.
Print Assumptions C44_no_underscore.
Lemma lower_in c : In c lower <-> 97 <= c <= 122.
Proof.
  change lower with (map (fun i => 97 + N.of_nat i) (seq 0 26)). rewrite in_map_iff. split.
  - intros (i & <- & I). apply in_seq in I. lia.
  - intros H. exists (N.to_nat (c - 97)). split; [lia|]. apply in_seq. lia.
Qed.
Lemma upper_in c : In c upper <-> 65 <= c <= 90.
Proof.
  change upper with (map (fun i => 65 + N.of_nat i) (seq 0 26)). rewrite in_map_iff. split.
  - intros (i & <- & I). apply in_seq in I. lia.
  - intros H. exists (N.to_nat (c - 65)). split; [lia|]. apply in_seq. lia.
Qed.
Lemma rest_inj s : allowed_rest s -> forall t, allowed_rest t -> logic_chars false s = logic_chars false t -> s = t.
Proof.
  assert (L : forall c r, In c lower -> logic_chars false (95 :: c :: r) = (c - 32) :: logic_chars false r).
  { intros c r I. apply lower_in in I. cbn [logic_chars]. change (95 =? UNDERSCORE) with true. cbn [logic_chars]. unfold UNDERSCORE, to_ascii_uppercase.
    destruct (c =? 95) eqn:E; [lia|]. destruct ((97 <=? c) && (c <=? 122)) eqn:F; [reflexivity|lia]. }
  assert (O : forall c r, c <> 95 -> logic_chars false (c :: r) = c :: logic_chars false r).
  { intros c r N. cbn [logic_chars]. unfold UNDERSCORE. destruct (c =? 95) eqn:E; [lia|reflexivity]. }
  induction 1 as [|c s N U H IH|c s I H IH]; intros t T E; inversion T as [|d r N' U' T'|d r I' T']; subst.
  - reflexivity.
  - rewrite O in E by auto. discriminate.
  - rewrite L in E by auto. discriminate.
  - rewrite O in E by auto. discriminate.
  - rewrite !O in E by auto. injection E as -> E. f_equal. now apply IH.
  - rewrite O, L in E by auto. injection E as -> E. elim U. apply upper_in. apply lower_in in I'. lia.
  - rewrite L in E by auto. discriminate.
  - rewrite L, O in E by auto. injection E as <- E. elim U'. apply upper_in. apply lower_in in I. lia.
  - rewrite !L in E by auto. injection E as E1 E. apply lower_in in I, I'. assert (c = d) as -> by lia. do 2 f_equal. now apply IH.
Qed.
Theorem C44_injective s t : allowed_name s -> allowed_name t -> view_name_to_logic s = view_name_to_logic t -> s = t.
Proof.
  intros (c & r & -> & I & R) (d & q & -> & J & Q) E. unfold view_name_to_logic in E. apply app_inv_tail in E.
  apply lower_in in I, J. cbn [logic_chars] in E. unfold UNDERSCORE in E.
  destruct (c =? 95) eqn:E1; [lia|]. destruct (d =? 95) eqn:E2; [lia|]. injection E as E3 E. unfold to_ascii_uppercase in E3.
  destruct ((97 <=? c) && (c <=? 122)) eqn:F1; [|lia]. destruct ((97 <=? d) && (d <=? 122)) eqn:F2; [|lia].
  assert (c = d) as -> by lia. f_equal. now apply rest_inj.
Qed.
Print Assumptions C44_injective.
(** two names that Sketchware does not allow have the same java name *)
Example C44_example :
  view_name_to_logic (lit "main") = lit "MainActivity" /\ view_name_to_logic (lit "sign_up2_form") = lit "SignUp2FormActivity" /\
  allowed_name (lit "sign_up2_form") /\ view_name_to_logic (lit "a__b") = view_name_to_logic (lit "a_b") /\ ~ allowed_name (lit "a__b").
Proof.
  repeat split; try (vm_compute; reflexivity).
  - exists 115, (lit "ign_up2_form"). split; [reflexivity|]. split; [apply lower_in; lia|]. change (lit "ign_up2_form") with (105 :: 103 :: 110 :: 95 :: 117 :: 112 :: 50 :: 95 :: 102 :: 111 :: 114 :: 109 :: []).
    repeat first [apply al_word; [apply lower_in; lia|]|apply al_char; [lia|rewrite upper_in; lia|]|apply al_end].
  - intros (c & r & E & _ & R). change (lit "a__b") with [97; 95; 95; 98] in E. injection E as <- <-. inversion R as [|? ? N|? ? I]; subst; [now elim N|].
    apply lower_in in I. lia.
Qed.

(** ** C45 *)
(** Exactly which screens come back: moreblocks are filed under their name with a plain non-empty spec, all code
    survives conversion, code is not kept in a shared container and an [onCreate] event is the first and only one.
    The maps have distinct keys in Rust. *)
Theorem C45_exact s ln jn fe ve fab views : NoDup (map fst (sc_more_blocks s)) -> NoDup (map fst (sc_components s)) -> parse_raw_layout ve = Ok views ->
  (exists lg s', screen_logic_of s = Ok lg /\ screen_from_parsed ln jn fe ve lg fab = Ok s' /\ same_logic s s') <-> good_screen s.
Proof. apply logic_back_iff. Qed.
Print Assumptions C45_exact.
(** which code survives: see [kept] in SpecBlock.v (the condition of C31) *)
Theorem C45_code l : 9 + N.of_nat (blocks_size l) < 2 ^ 31 -> survives l <-> Forall kept l.
Proof. apply survives_kept. Qed.
Print Assumptions C45_code.
(** What is missing for the full claim are the screens that are not good, see [C45_refuted]. *)
Theorem C45_partial s ln jn fe ve fab views : NoDup (map fst (sc_more_blocks s)) -> NoDup (map fst (sc_components s)) -> parse_raw_layout ve = Ok views ->
  good_screen s -> exists lg s', screen_logic_of s = Ok lg /\ screen_from_parsed ln jn fe ve lg fab = Ok s' /\ same_logic s s'.
Proof. intros A B C. now apply logic_back_iff with (ln := ln) (jn := jn) (fe := fe) (fab := fab) (2 := B) (3 := C). Qed.
Print Assumptions C45_partial.
Definition screen1 (events : list aevent) : screen :=
  {| sc_layout_name := lit "main"; sc_java_name := lit "MainActivity"; sc_layout := []; sc_variables := [];
     sc_list_variables := []; sc_more_blocks := [(lit "say", {| am_name := lit "say"; am_spec := [SText (lit "say"); SParam (ArgString (Some (lit "what")) AEmpty)]; am_code := [toast "said"] |})];
     sc_components := [(lit "timer", CkTimer); (lit "file", CkSharedPreferences (lit "data"))]; sc_events := events; sc_fab := None;
     sc_fullscreen := false; sc_toolbar := true; sc_drawer := false; sc_fab_enabled := false; sc_orientation := OrPortrait; sc_theme := ThDefault; sc_keyboard := KbUnspecified |}.
Definition again (s : screen) : option (res screen_error screen) :=
  match screen_logic_of s with Ok lg => Some (screen_from_parsed (sc_layout_name s) (sc_java_name s) fe1 [] lg None) | _ => None end.
Lemma toast_survives t : In t ["hi"; "one"; "two"; "said"]%string -> survives [toast t].
Proof. intros [<-|[<-|[<-|[<-|[]]]]]; (eexists; split; [vm_compute; reflexivity|vm_compute; reflexivity]). Qed.
(** two events with the same container name: the code of one of them is lost; an [onCreate] event that is not the first is moved *)
Theorem C45_refuted :
  (exists s s', NoDup (map fst (sc_more_blocks s)) /\ NoDup (map fst (sc_components s)) /\ Forall (fun e => survives (ae_code e)) (sc_events s) /\
     NoDup (map (fun e => (ae_name e, ae_type e)) (sc_events s)) /\
     again s = Some (Ok s') /\ map ae_code (sc_events s) = [[toast "one"]; [toast "two"]] /\ map ae_code (sc_events s') = [[toast "two"]; []]) /\
  (exists s s', again s = Some (Ok s') /\ map ae_name (sc_events s) = [lit "onClick"; lit "onCreate"] /\ map ae_name (sc_events s') = [lit "onCreate"; lit "onClick"]).
Proof.
  split.
  - exists (screen1 [ev "b_c" (EtView (lit "a")) [toast "one"]; ev "c" (EtView (lit "a_b")) [toast "two"]]). eexists.
    split; [repeat constructor; cbn; intuition discriminate|]. split; [repeat constructor; cbn; intuition discriminate|].
    split; [constructor; [apply toast_survives; cbn; auto|constructor; [apply toast_survives; cbn; auto|constructor]]|].
    split; [constructor; [|constructor; [intros []|constructor]]; intros [E|[]]; discriminate E|].
    split; [vm_compute; reflexivity|]. split; reflexivity.
  - exists (screen1 [ev "onClick" (EtView (lit "a")) []; ev "onCreate" EtActivity []]). eexists.
    split; [vm_compute; reflexivity|]. split; reflexivity.
Qed.
Print Assumptions C45_refuted.
Example C45_example :
  let s := screen1 [ev "onCreate" EtActivity [toast "hi"]; ev "onClick" (EtView (lit "a")) [toast "one"]; ev "onTick" (EtComponent (lit "timer") 5) []] in
  good_screen s /\ exists s', again s = Some (Ok s') /\ same_logic s s'.
Proof.
  cbv zeta. split.
  - split; [|split; [|split]].
    + constructor; [|constructor]. split; [reflexivity|]. split; [discriminate|]. split; [|apply toast_survives; cbn; auto].
      constructor; [split; [cbn; intuition discriminate|intros (r & E); discriminate E]|]. constructor; [|constructor]. split; [split; [discriminate|cbn; intuition discriminate]|reflexivity].
    + constructor; [apply toast_survives; cbn; auto|]. constructor; [apply toast_survives; cbn; auto|]. constructor; [|constructor]. apply survives_nil.
    + intros a e b E [(o & I & C)|(kv & I & C)].
      * exfalso. destruct a as [|x1 [|x2 [|x3 a]]]; cbn in E; inversion E; subst; cbn in I; repeat (destruct I as [<-|I]; [vm_compute in C; discriminate|]); try contradiction.
        destruct a; discriminate.
      * exfalso. cbn in I. destruct I as [<-|[]]. destruct a as [|x1 [|x2 [|x3 a]]]; cbn in E; inversion E; subst; try (vm_compute in C; discriminate). destruct a; discriminate.
    + right. eexists; eexists. split; [reflexivity|]. repeat split. cbn. intros x [<-|[<-|[]]]; discriminate.
  - eexists. split; [vm_compute; reflexivity|]. repeat split.
Qed.
