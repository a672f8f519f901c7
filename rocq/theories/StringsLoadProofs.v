(** Proofs that strings stay valid strings: from the records to the API (C92). *)
From Verif Require Import Base Spec Str Dec Flt Json Recs M_Color M_Date M_Raw M_Project M_File M_Library M_Resource M_View M_Logic M_Parsed
  A_Block A_View A_Screen A_Project SpecStrings SpecBlock BlockWriteProofs ViewTreeProofs ApiProjectProofs ProjectReadingProofs StringsProofs StringsApiProofs StringsReadProofs.

(** ** Blocks *)
Lemma obnd_ok {E A C} (x : out E A) (f : A -> out E C) c : obnd x f = Some (Ok c) -> exists a, x = Some (Ok a) /\ f a = Some (Ok c).
Proof. destruct x as [[a|e|]|]; cbn; try discriminate. eauto. Qed.
Lemma omap_err_ok {E F A} (f : E -> F) (x : out E A) a : omap_err f x = Some (Ok a) -> x = Some (Ok a).
Proof. destruct x as [[b|e|]|]; cbn; congruence. Qed.
Lemma some_map_err {E F A} (f : E -> F) (x : res E A) a : Some (map_err f x) = Some (Ok a) -> x = Ok a.
Proof. destruct x; cbn; congruence. Qed.
Lemma ok_spec_name s n : string_ok s -> spec_name s = Ok n -> oks (maybe alone n).
Proof.
  unfold spec_name. intros H P. cbv zeta in P. destruct (match nth_error s 2 with Some _ => _ | None => _ end); [|injection P as <-; exact (Forall_nil _)].
  apply bind_ok in P as (x & X & P). apply unwrap_ok in X. injection P as <-. cbn [maybe]. apply oks_alone. exact (ok_bdrop _ _ _ H X).
Qed.
Section Content.
  Context {B : Type} (f : B -> list str).
  Lemma ok_items_wo ts : forall is, oks ts -> items_wo_params (B:=B) ts = Ok is -> oks (flat_map (item_texts f) is).
  Proof.
    induction ts as [|s r IH]; intros is H P; cbn [items_wo_params] in P; [injection P as <-; exact (Forall_nil _)|]. apply oks_cons in H as [Hs H].
    apply bind_ok in P as (i & I & P). apply bind_ok in P as (is' & P & E). injection E as <-. cbn [flat_map]. apply oks_app. split; [|eauto].
    destruct (starts_with _ s); [|injection I as <-; now apply oks_alone]. apply bind_ok in I as (a & T & I). injection I as <-. unfold token_wo_params in T.
    apply bind_ok in T as (n & N0 & T). apply ok_spec_name in N0; [|exact Hs]. apply bind_ok in T as (c & _ & T).
    destruct (c =? 115); [injection T as <-; cbn [item_texts value_texts]; now rewrite app_nil_r|]. destruct (c =? 98); [injection T as <-; cbn [item_texts value_texts]; now rewrite app_nil_r|].
    destruct (c =? 100); [injection T as <-; cbn [item_texts value_texts]; now rewrite app_nil_r|]. destruct (c =? 109); [|discriminate].
    apply bind_ok in T as (m & M & T). apply unwrap_ok in M. injection T as <-. subst n. exact N0.
  Qed.
  Lemma ok_value_or_block {T} (p : str -> res content_error T) (g : T -> list str) v a : (forall t, p v = Ok t -> oks (g t)) -> value_or_block (B:=B) p v = Ok a -> oks (value_texts f g a).
  Proof.
    intros G P. unfold value_or_block in P. destruct (starts_with _ v).
    - apply bind_ok in P as (x & _ & P). apply bind_ok in P as (y & _ & P). injection P as <-. exact (Forall_nil _).
    - apply bind_ok in P as (t & T0 & P). injection P as <-. cbn [value_texts]. auto.
  Qed.
  Lemma ok_items_parse ts : forall args is, oks ts -> oks args -> items_parse (B:=B) ts args = Ok is -> oks (flat_map (item_texts f) is).
  Proof.
    induction ts as [|s r IH]; intros args is H A P; cbn [items_parse] in P; [injection P as <-; exact (Forall_nil _)|]. apply oks_cons in H as [Hs H].
    destruct (starts_with _ s).
    2:{ apply bind_ok in P as (is' & P & E). injection E as <-. cbn [flat_map item_texts]. apply oks_app. split; [now apply oks_alone|eauto]. }
    apply bind_ok in P as ([a args'] & T & P). apply bind_ok in P as (is' & P & E). injection E as <-. cbn [flat_map]. apply oks_app.
    assert (K : oks (item_texts f (SParam a)) /\ oks args').
    { unfold token_parse in T. apply bind_ok in T as (n & N0 & T). apply ok_spec_name in N0; [|exact Hs]. apply bind_ok in T as (c & _ & T).
      assert (TA : forall v q, take_arg args = Ok (v, q) -> string_ok v /\ oks q) by (intros v q X; destruct args as [|x y]; [discriminate X|]; injection X as <- <-; now apply oks_cons in A).
      destruct (c =? 115); [|destruct (c =? 98); [|destruct (c =? 100); [|destruct (c =? 109); [|discriminate]]]].
      - apply bind_ok in T as ([v q] & V & T). apply TA in V as [V Q]. apply bind_ok in T as (w & W & T). injection T as <- <-. split; [|exact Q]. cbn [item_texts]. apply oks_app. split; [exact N0|].
        eapply ok_value_or_block; [|exact W]. intros t [= <-]. now apply oks_alone.
      - apply bind_ok in T as ([v q] & V & T). apply TA in V as [V Q]. apply bind_ok in T as (w & W & T). injection T as <- <-. split; [|exact Q]. cbn [item_texts]. apply oks_app. split; [exact N0|].
        eapply ok_value_or_block; [|exact W]. intros t _. exact (Forall_nil _).
      - apply bind_ok in T as ([v q] & V & T). apply TA in V as [V Q]. apply bind_ok in T as (w & W & T). injection T as <- <-. split; [|exact Q]. cbn [item_texts]. apply oks_app. split; [exact N0|].
        eapply ok_value_or_block; [|exact W]. intros t _. exact (Forall_nil _).
      - apply bind_ok in T as (m & M & T). apply unwrap_ok in M. subst n. apply bind_ok in T as ([v q] & V & T). apply TA in V as [V Q]. injection T as <- <-. split; [|exact Q]. cbn [item_texts value_texts].
        cbn [maybe] in N0. rewrite oks_alone in N0. apply oks_cons. split; [exact N0|now apply oks_alone]. }
    split; [tauto|]. eapply IH; [exact H| |exact P]. tauto.
  Qed.
End Content.
Lemma ok_content_parse spec args is : string_ok spec -> oks args -> content_parse (B:=ablock) spec args = Ok is -> oks (flat_map (item_texts block_texts) is).
Proof. intros S A P. eapply ok_items_parse; [|exact A|exact P]. now apply ok_split. Qed.
Lemma ok_wo_params spec is : string_ok spec -> parse_wo_params (B:=ablock) spec = Ok is -> oks (flat_map (item_texts block_texts) is).
Proof. intros S P. eapply ok_items_wo; [|exact P]. now apply ok_split. Qed.

Definition map_ok (m : bmap) : Prop := forall k b, In (k, b) m -> oks (raw_block_texts b).
Lemma ok_bget k m b : map_ok m -> bget k m = Some b -> oks (raw_block_texts b).
Proof.
  intros H G. unfold bget in G. induction m as [|[k' v] r IH]; cbn [lget] in G; [discriminate|]. destruct (k =? k')%N; [injection G as <-; apply (H k'); now left|].
  apply IH; auto. intros x y I. apply (H x). now right.
Qed.
Lemma in_bremove k m x : In x (bremove k m) -> In x m.
Proof.
  unfold bremove. induction m as [|(k', v) r IH]; cbn [lremove]; [easy|]. destruct (k =? k')%N; [now right; apply IH|].
  intros [<-|I]; [now left|right; auto].
Qed.
Lemma ok_bremove k m : map_ok m -> map_ok (bremove k m).
Proof. intros H x b I. apply in_bremove in I. eauto. Qed.
Lemma ok_to_map l : forall acc m, oks (flat_map raw_block_texts l) -> map_ok acc -> to_map l acc = Ok m -> map_ok m.
Proof.
  induction l as [|b r IH]; intros acc m H A P; cbn [to_map] in P; [injection P as <-; auto|]. cbn [flat_map] in H. apply oks_app in H as [Hb H]. apply bind_ok in P as (n & _ & P).
  eapply IH; [exact H| |exact P]. unfold binsert, linsert. intros x y I. apply in_app_iff in I as [I|[[= <- <-]|[]]]; [|exact Hb]. apply in_bremove in I. eauto.
Qed.
Section Fill.
  Context (get : N -> bmap -> out conv_error (ablock * bmap)).
  Hypothesis G : forall id m b m', map_ok m -> get id m = Some (Ok (b, m')) -> oks (block_texts b) /\ map_ok m'.
  Lemma ok_get_block id m b m' : map_ok m -> get_block get id m = Some (Ok (b, m')) -> oks (block_texts b) /\ map_ok m'.
  Proof. intros M P. unfold get_block in P. apply omap_err_ok in P. eauto. Qed.
  Lemma ok_fill_value {T} (g : T -> list str) v m w m' : oks (value_texts block_texts g v) -> map_ok m -> fill_value get v m = Some (Ok (w, m')) -> oks (value_texts block_texts g w) /\ map_ok m'.
  Proof.
    intros V M P. destruct v as [t|b|i|]; cbn [fill_value] in P; try (injection P as <- <-; split; auto).
    apply obnd_ok in P as ([b m1] & K & P). injection P as <- <-. exact (ok_get_block _ _ _ _ M K).
  Qed.
  Lemma ok_fill_boolean v m w m' : oks (value_texts block_texts (fun _ => []) v) -> map_ok m -> fill_boolean get ab_op_code v m = Some (Ok (w, m')) ->
    oks (value_texts block_texts (fun _ => []) w) /\ map_ok m'.
  Proof.
    intros V M P. destruct v as [t|b|i|]; cbn [fill_boolean] in P; try (injection P as <- <-; split; auto).
    apply obnd_ok in P as ([b m1] & K & P). apply ok_get_block in K as [K1 K2]; [|exact M]. destruct (str_eqb _ _); [injection P as <- <-; split; [exact (Forall_nil _)|exact K2]|].
    destruct (str_eqb _ _); injection P as <- <-; (split; [|exact K2]); [exact (Forall_nil _)|exact K1].
  Qed.
  Lemma ok_apply_blocks items : forall m is m', oks (flat_map (item_texts block_texts) items) -> map_ok m -> apply_blocks get ab_op_code items m = Some (Ok (is, m')) ->
    oks (flat_map (item_texts block_texts) is) /\ map_ok m'.
  Proof.
    induction items as [|[t|a] r IH]; intros m is m' H M P; cbn [apply_blocks] in P; [injection P as <- <-; auto| |]; cbn [flat_map] in H; apply oks_app in H as [H0 H].
    - apply obnd_ok in P as ([is0 m1] & K & P). injection P as <- <-. apply IH in K as [K1 K2]; auto. split; auto. cbn [flat_map]. now apply oks_app.
    - apply obnd_ok in P as ([b m1] & F & P). apply obnd_ok in P as ([is0 m2] & K & P). injection P as <- <-.
      assert (FA : oks (item_texts block_texts (SParam b)) /\ map_ok m1).
      { destruct a as [n v|n v|n v|n v]; cbn [fill_arg] in F; apply obnd_ok in F as ([w m3] & F & E); injection E as <- <-; cbn [item_texts] in *.
        - apply oks_app in H0 as [N0 V]. apply (ok_fill_value alone) in F as [F1 F2]; auto. split; auto. now apply oks_app.
        - apply oks_app in H0 as [N0 V]. apply (ok_fill_value (fun _ => [])) in F as [F1 F2]; auto. split; auto. now apply oks_app.
        - apply oks_app in H0 as [N0 V]. apply ok_fill_boolean in F as [F1 F2]; auto. split; auto. now apply oks_app.
        - apply oks_cons in H0 as [N0 V]. apply (ok_fill_value alone) in F as [F1 F2]; auto. split; auto. now apply oks_cons. }
      destruct FA as [F1 F2]. apply IH in K as [K1 K2]; auto. split; auto. cbn [flat_map]. now apply oks_app.
  Qed.
End Fill.
Lemma ok_block_type s n t : string_ok n -> block_type_from s n = Ok t -> oks (block_type_texts t).
Proof.
  intros H P. unfold block_type_from in P. cbv zeta in P.
  repeat (match type of P with (if ?b then _ else _) = _ => destruct b end); try discriminate; try (injection P as <-; first [exact (Forall_nil _)|now apply oks_alone]).
  apply bind_ok in P as (i & _ & P). injection P as <-. exact (Forall_nil _).
Qed.
Lemma ok_parse_blocks d : (forall id m b m', map_ok m -> parse_block d id m = Some (Ok (b, m')) -> oks (block_texts b) /\ map_ok m') /\
  (forall id m bs m', map_ok m -> parse_blocks d id m = Some (Ok (bs, m')) -> oks (flat_map block_texts bs) /\ map_ok m').
Proof.
  induction d as [|d [IB IS]]; [split; discriminate|]. split.
  - intros id m b m' M P. cbn [parse_block] in P. apply obnd_ok in P as (pb & PB & P). assert (PB' : bget id m = Some pb) by (destruct (bget id m); cbn in PB; congruence). clear PB.
    apply (ok_bget _ _ _ M) in PB'. unfold raw_block_texts in PB'. rewrite oks_app, !oks_cons in PB'. destruct PB' as ((B1 & B2 & B3 & B4 & B5 & _) & B6).
    apply ok_bremove with (k := id) in M. cbv zeta in P. apply obnd_ok in P as ([s1 m1] & P1 & P).
    assert (S1 : oks (maybe (flat_map block_texts) s1) /\ map_ok m1).
    { destruct (_ <? 0)%Z; [injection P1 as <- <-; split; [exact (Forall_nil _)|auto]|]. apply obnd_ok in P1 as ([s m3] & P1 & E). injection E as <- <-. apply omap_err_ok in P1. apply IS in P1; auto. }
    destruct S1 as [S1 M1]. clear P1. apply obnd_ok in P as ([s2 m2] & P2 & P).
    assert (S2 : oks (maybe (flat_map block_texts) s2) /\ map_ok m2).
    { destruct (_ <? 0)%Z; [injection P2 as <- <-; split; [exact (Forall_nil _)|auto]|]. apply obnd_ok in P2 as ([s m3] & P2 & E). injection E as <- <-. apply omap_err_ok in P2. apply IS in P2; auto. }
    destruct S2 as [S2 M2]. clear P2. apply obnd_ok in P as (items & PI & P). apply some_map_err in PI. apply ok_content_parse in PI; [|exact B3|exact B6].
    apply obnd_ok in P as ([items' m3] & PA & P). apply omap_err_ok in PA. apply (ok_apply_blocks _ IB) in PA as [PA M3]; [|exact PI|exact M2].
    apply obnd_ok in P as (ty & PT & P). apply some_map_err, ok_block_type in PT; [|exact B5]. injection P as <- <-. split; [|exact M3]. cbn [block_texts]. rewrite oks_cons, !oks_app.
    repeat split; auto.
  - intros id m bs m' M P. cbn [parse_blocks] in P. apply obnd_ok in P as (pb & _ & P). apply obnd_ok in P as ([b m1] & P1 & P). apply IB in P1 as [P1 M1]; [|exact M].
    destruct (_ <? 0)%Z; [injection P as <- <-; split; [|exact M1]; cbn [flat_map]; now rewrite app_nil_r|].
    apply obnd_ok in P as ([bs0 m2] & P2 & P). apply IS in P2 as [P2 M2]; [|exact M1]. injection P as <- <-. split; [|exact M2]. cbn [flat_map]. now apply oks_app.
Qed.
Lemma ok_try_blocks c bs : oks (flat_map raw_block_texts c) -> blocks_try_from c = Ok bs -> oks (flat_map block_texts bs).
Proof.
  intros H P. unfold blocks_try_from in P. destruct (try_from_depth (enough c) c) as [r|] eqn:E; [|discriminate]. subst r. unfold try_from_depth in E. apply obnd_ok in E as (m & M & E).
  assert (M' : to_map c [] = Ok m) by congruence. apply ok_to_map in M'; [|exact H|easy]. destruct m as [|[id b0] m]; [injection E as <-; exact (Forall_nil _)|].
  apply obnd_ok in E as ([bs0 m1] & E & X). injection X as <-. apply ok_parse_blocks in E; [tauto|exact M'].
Qed.

(** ** Views *)
Lemma ok_from_view v : oks (raw_view_texts v) -> oks (match from_view v with inl t => view_type_texts t | inr e => view_type_error_texts e end).
Proof.
  unfold raw_view_texts. rewrite !oks_app, !oks_cons, !oks_maybe. intros H. unfold from_view. cbv zeta.
  assert (R : forall r, ic_res_name (av_image v) = Some r -> string_ok r) by (intros r R; apply oks_alone; destruct H as (_ & H & _); exact (H r R)).
  repeat match goal with |- context [match ?x with _ => _ end] => match x with
    | ic_res_name _ => destruct x as [r|] eqn:?
    | _ => is_var x; destruct x
    | av_type v => destruct (av_type v) as [|?p]
    end end; cbn [view_type_texts view_type_error_texts]; rewrite ?oks_cons, ?oks_nil; repeat split; try tauto; auto.
Qed.
Lemma ok_view_from v : oks (raw_view_texts v) -> oks (aview_texts (view_from v)).
Proof.
  intros H. unfold view_from. cbn [aview_texts flat_map]. rewrite app_nil_r. unfold node_texts. cbn [attrs_of vn_id vn_view vn_raw]. rewrite oks_cons, oks_app.
  pose proof (ok_from_view v H). split; [|auto]. unfold raw_view_texts in H. rewrite oks_app, !oks_cons in H. tauto.
Qed.
Lemma ok_find_mut id l : Forall (fun v => forall w put, oks (aview_texts v) -> find_id_mut id v = Some (w, put) -> oks (aview_texts w) /\ forall w', oks (aview_texts w') -> oks (aview_texts (put w'))) l ->
  forall w put, oks (flat_map aview_texts l) -> find_map_mut (find_id_mut id) l = Some (w, put) -> oks (aview_texts w) /\ forall w', oks (aview_texts w') -> oks (flat_map aview_texts (put w')).
Proof.
  induction l as [|x r IH]; intros F w put H P; cbn [find_map_mut] in P; [discriminate|]. apply Forall_cons_iff in F as [Fx F]. cbn [flat_map] in H. apply oks_app in H as [Hx H].
  destruct (find_id_mut id x) as [[w0 p0]|] eqn:E.
  - injection P as <- <-. destruct (Fx _ _ Hx eq_refl) as [F1 F2]. split; auto. intros w' W. cbn [flat_map]. apply oks_app. auto.
  - destruct (find_map_mut (find_id_mut id) r) as [[w0 p0]|]; [|discriminate]. injection P as <- <-. destruct (IH F _ _ H eq_refl) as [F1 F2]. split; auto. intros w' W. cbn [flat_map]. apply oks_app. auto.
Qed.
Lemma ok_find_id_mut id v : forall w put, oks (aview_texts v) -> find_id_mut id v = Some (w, put) -> oks (aview_texts w) /\ forall w', oks (aview_texts w') -> oks (aview_texts (put w')).
Proof.
  induction v as [n ch IH] using aview_induct. intros w put H P. cbn [find_id_mut] in P. destruct (str_eqb (vn_id n) id).
  - injection P as <- <-. split; auto.
  - destruct (find_map_mut (find_id_mut id) ch) as [[w0 p0]|] eqn:E; [|discriminate]. injection P as <- <-. cbn [aview_texts] in H. apply oks_app in H as [Hn H].
    destruct (ok_find_mut id ch IH _ _ H E) as [F1 F2]. split; auto. intros w' W. cbn [aview_texts]. apply oks_app. auto.
Qed.
Lemma ok_layout_steps vs : forall acc l, oks (flat_map raw_view_texts vs) -> oks (flat_map aview_texts acc) -> layout_steps vs acc = Ok l -> oks (flat_map aview_texts l).
Proof.
  induction vs as [|v r IH]; intros acc l H A P; cbn [layout_steps] in P; [injection P as <-; auto|]. cbn [flat_map] in H. apply oks_app in H as [Hv H]. apply bind_ok in P as (acc1 & S & P).
  eapply IH; [exact H| |exact P]. unfold layout_step in S. apply bind_ok in S as (pid & _ & S). pose proof (ok_view_from v Hv) as K. destruct (str_eqb pid ROOT).
  - injection S as <-. rewrite flat_map_app. apply oks_app. split; auto. cbn [flat_map]. now rewrite app_nil_r.
  - apply bind_ok in S as ([w put] & F & S). apply ok_or_ok in F. injection S as <-. cbn [fst snd].
    destruct (ok_find_mut pid acc) with (w := w) (put := put) as [F1 F2]; auto. { apply Forall_forall. intros x _. apply ok_find_id_mut. }
    apply F2. destruct w as [n ch]. unfold push_child. cbn [vnode vchildren aview_texts] in *. rewrite flat_map_app, !oks_app in *. cbn [flat_map]. rewrite app_nil_r. tauto.
Qed.
Lemma ok_parse_layout l vs : oks (flat_map raw_view_texts l) -> parse_raw_layout l = Ok vs -> oks (flat_map aview_texts vs).
Proof. intros H P. exact (ok_layout_steps l [] vs H (Forall_nil _) P). Qed.

(** ** Screens *)
Lemma ok_container k bc : oks (named (flat_map raw_block_texts) bc) -> oks (flat_map raw_block_texts (or_empty (sget k bc))).
Proof. intros H. destruct (sget k bc) as [c|] eqn:E; [|exact (Forall_nil _)]. exact (oks_get _ _ _ _ H E). Qed.
Lemma ok_take_more_blocks l : forall bc ms bc', oks (named more_block_texts l) -> oks (named (flat_map raw_block_texts) bc) -> take_more_blocks l bc = Ok (ms, bc') ->
  oks (named amore_block_texts ms) /\ oks (named (flat_map raw_block_texts) bc').
Proof.
  induction l as [|[id mb] r IH]; intros bc ms bc' H B P; cbn [take_more_blocks] in P; [injection P as <- <-; split; [exact (Forall_nil _)|auto]|].
  unfold named in H. cbn [flat_map fst snd] in H. rewrite oks_app, oks_cons in H. destruct H as ((Hi & Hm) & H). unfold more_block_texts in Hm. rewrite !oks_cons in Hm.
  apply bind_ok in P as (spec & S & P). apply map_err_ok, ok_wo_params in S; [|tauto]. cbn [take_container] in P. apply bind_ok in P as (code & C & P).
  apply map_err_ok, ok_try_blocks in C; [|now apply ok_container]. apply bind_ok in P as ([ms0 bc1] & P & E). injection E as <- <-. apply IH in P as [P1 P2]; [|exact H|now apply oks_remove].
  split; [|exact P2]. unfold named. cbn [flat_map fst snd]. unfold amore_block_texts at 1. cbn [am_name am_spec am_code]. rewrite oks_app, !oks_cons, oks_app. repeat split; auto.
Qed.
Lemma ok_take_components l : forall ks, oks (flat_map component_texts l) -> take_components l = Ok ks -> oks (named component_kind_texts ks).
Proof.
  induction l as [|c r IH]; intros ks H P; cbn [take_components] in P; [injection P as <-; exact (Forall_nil _)|]. cbn [flat_map] in H. apply oks_app in H as [Hc H].
  apply bind_ok in P as (k & K & P). apply bind_ok in P as (ks0 & P & E). injection E as <-. unfold component_texts in Hc. rewrite !oks_cons in Hc. unfold named. cbn [flat_map fst snd]. rewrite oks_app, oks_cons.
  split; [split; [tauto|]|now apply IH]. unfold from_parser_component in K. destruct (co_type c) as [|t]; [discriminate|].
  repeat (match type of K with match ?t with _ => _ end = _ => is_var t; destruct t end; try discriminate); injection K as <-; cbn [component_kind_texts]; first [exact (Forall_nil _)|apply oks_alone; tauto].
Qed.
Lemma ok_take_events l : forall bc es, oks (flat_map event_texts l) -> oks (named (flat_map raw_block_texts) bc) -> take_events l bc = Ok es -> oks (flat_map aevent_texts es).
Proof.
  induction l as [|e r IH]; intros bc es H B P; cbn [take_events] in P; [injection P as <-; exact (Forall_nil _)|]. cbn [flat_map] in H. apply oks_app in H as [He H]. unfold event_texts in He. rewrite !oks_cons in He.
  apply bind_ok in P as (ev & V & P). apply map_err_ok in V. unfold event_try_from in V. apply bind_ok in V as (t & T & V). injection V as <-. cbn [take_container ae_name ae_type] in P.
  apply bind_ok in P as (code & C & P). apply map_err_ok, ok_try_blocks in C; [|now apply ok_container]. apply bind_ok in P as (es0 & P & E). injection E as <-. apply IH in P; [|exact H|now apply oks_remove].
  cbn [flat_map]. unfold aevent_texts at 1. cbn [ae_name ae_type ae_code]. rewrite oks_app, oks_cons, oks_app. repeat split; try tauto.
  unfold event_type_from in T. destruct (ev_type e) as [|p]; [discriminate|].
  repeat (match type of T with match ?t with _ => _ end = _ => is_var t; destruct t end; try discriminate); injection T as <-; cbn [event_type_texts]; first [exact (Forall_nil _)|apply oks_alone; tauto].
Qed.
Lemma ok_or_empty {A} (f : list A -> list str) (o : option (list A)) : oks (f []) -> oks (maybe f o) -> oks (f (or_empty o)).
Proof. destruct o; auto. Qed.
Lemma ok_screen_from ln jn fe ve le fab s : string_ok ln -> string_ok jn -> oks (flat_map raw_view_texts ve) -> oks (screen_logic_texts le) -> oks (maybe aview_texts fab) ->
  screen_from_parsed ln jn fe ve le fab = Ok s -> oks (screen_texts s).
Proof.
  intros L J V G F P. unfold screen_logic_texts in G. rewrite oks_cons, !oks_app in G. destruct G as (_ & G1 & G2 & G3 & G4 & G5 & G6). unfold screen_from_parsed in P. cbv zeta in P.
  apply bind_ok in P as (views & PV & P). apply map_err_ok, ok_parse_layout in PV; [|exact V]. apply bind_ok in P as ([ms bc] & PM & P).
  apply ok_take_more_blocks in PM as [PM PB]; [|apply (ok_or_empty (named more_block_texts)); [exact (Forall_nil _)|exact G6]|exact G1].
  apply bind_ok in P as (cs & PC & P). apply map_err_ok, ok_take_components in PC; [|apply (ok_or_empty (flat_map component_texts)); [exact (Forall_nil _)|exact G4]].
  apply bind_ok in P as (es & PE & P). apply ok_take_events in PE; [| |exact PB].
  2:{ apply (ok_or_empty (flat_map event_texts)); [exact (Forall_nil _)|]. unfold with_on_create. destruct (smem _ _); [|exact G5]. cbn [maybe flat_map]. apply oks_app. split.
      - unfold event_texts, on_create_event. cbn [ev_name ev_target_id]. rewrite !oks_cons. repeat split; [apply ok_lit..|exact (Forall_nil _)].
      - exact (ok_or_empty (flat_map event_texts) (sl_events le) (Forall_nil _) G5). }
  injection P as <-. unfold screen_texts. cbn [sc_layout_name sc_java_name sc_layout sc_variables sc_list_variables sc_more_blocks sc_components sc_events sc_fab].
  rewrite !oks_app, !oks_cons. repeat split; auto using oks_collect; try exact (Forall_nil _).
  - apply (ok_or_empty (named variable_texts)); [exact (Forall_nil _)|exact G2].
  - apply (ok_or_empty (named list_variable_texts)); [exact (Forall_nil _)|exact G3].
Qed.

(** ** Projects *)
Lemma ok_take_screens l : forall lays lgs fabs ss lays', oks (map fi_filename l) -> oks (named (flat_map raw_view_texts) lays) -> oks (logic_texts lgs) -> oks (named raw_view_texts fabs) ->
  take_screens l lays lgs fabs = Ok (ss, lays') -> oks (flat_map screen_texts ss) /\ oks (named (flat_map raw_view_texts) lays').
Proof.
  induction l as [|fe r IH]; intros lays lgs fabs ss lays' H L G F P; cbn [take_screens] in P; [injection P as <- <-; split; [exact (Forall_nil _)|auto]|]. cbn [map] in H. apply oks_cons in H as [Hf H]. cbv zeta in P.
  apply bind_ok in P as (s & S & P). apply bind_ok in P as ([ss0 l0] & P & E). injection E as <- <-. apply IH in P as [P1 P2]; [|exact H|now apply oks_remove|unfold logic_texts in *; now apply oks_remove|now apply oks_remove].
  split; [|exact P2]. cbn [flat_map]. apply oks_app. split; [|exact P1]. apply map_err_ok in S. set (lg := match sget (view_name_to_logic (fi_filename fe)) lgs with Some x => x | None => _ end) in S.
  assert (LG : oks (screen_logic_texts lg)).
  { unfold lg. destruct (sget _ lgs) as [x|] eqn:X; [exact (oks_get _ _ _ _ G X)|]. unfold screen_logic_texts. cbn. apply oks_cons. split; [exact Hf|exact (Forall_nil _)]. }
  eapply ok_screen_from; [exact Hf| | |exact LG| |exact S].
  - unfold screen_logic_texts in LG. apply oks_cons in LG. tauto.
  - apply (ok_or_empty (flat_map raw_view_texts)); [exact (Forall_nil _)|]. apply oks_maybe. intros x X. exact (oks_get _ _ _ _ L X).
  - cbv beta delta [option_map]. destruct (sget _ fabs) as [x|] eqn:X; [|exact (Forall_nil _)]. cbn [maybe]. apply ok_view_from. exact (oks_get _ _ _ _ F X).
Qed.
Lemma ok_take_custom_views l : forall lays cs, oks (map fi_filename l) -> oks (named (flat_map raw_view_texts) lays) -> take_custom_views l lays = Ok cs -> oks (flat_map custom_view_texts cs).
Proof.
  induction l as [|fe r IH]; intros lays cs H L P; cbn [take_custom_views] in P; [injection P as <-; exact (Forall_nil _)|]. cbn [map] in H. apply oks_cons in H as [Hf H]. cbv zeta in P.
  apply bind_ok in P as (lay & A & P). apply ok_or_ok in A. pose proof (oks_get _ _ _ _ L A) as K. apply bind_ok in P as (vs & V & P). apply map_err_ok, ok_parse_layout in V; [|exact K].
  apply bind_ok in P as (cs0 & P & E). injection E as <-. apply IH in P; [|exact H|now apply oks_remove]. cbn [flat_map]. unfold custom_view_texts at 1. cbn [cv_res_name cv_layout]. rewrite oks_app, oks_cons. auto.
Qed.
Lemma ok_take_resources t rnd l : forall i rf ws, oks (flat_map resource_item_texts l) -> oks (maybe (named wrapper_texts) rf) -> take_resources t rnd i l rf = Ok ws -> oks (named wrapper_texts ws).
Proof.
  induction l as [|it r IH]; intros i rf ws H F P; cbn [take_resources] in P; [injection P as <-; exact (Forall_nil _)|]. cbn [flat_map] in H. apply oks_app in H as [Hi H]. unfold resource_item_texts in Hi. rewrite !oks_cons in Hi.
  apply bind_ok in P as (w & W & P). apply bind_ok in P as (ws0 & P & E). injection E as <-. apply IH in P; [|exact H|destruct rf as [m|]; [cbn [maybe] in *; now apply oks_remove|exact (Forall_nil _)]].
  unfold named. cbn [flat_map fst snd]. rewrite oks_app, oks_cons. split; [split; [tauto|]|exact P].
  destruct rf as [m|]; [apply ok_or_ok in W; exact (oks_get _ _ _ _ F W)|]. injection W as <-. cbn [wrapper_texts]. apply oks_alone. tauto.
Qed.
Lemma ok_try_from rnd q p : oks (parsed_texts q) -> project_try_from rnd q = Ok p -> oks (sw_texts p).
Proof.
  unfold parsed_texts. rewrite !oks_app. intros (H1 & H2 & H3 & H4 & H5 & H6 & H7) P. unfold file_texts in H2. rewrite map_app, oks_app in H2. destruct H2 as [HA HC].
  unfold library_texts in H3. cbn [flat_map] in H3. unfold library_item_texts in H3. rewrite !oks_app, !oks_cons in H3. unfold resource_texts in H4. rewrite !flat_map_app, !oks_app in H4. destruct H4 as (R1 & R2 & R3).
  unfold view_texts in H5. rewrite oks_app in H5. destruct H5 as [VL VF].
  assert (RF : oks (maybe wrapper_texts (match pp_resource_files q with Some f => rf_custom_icon f | None => None end)) /\ oks (maybe (named wrapper_texts) (option_map rf_images (pp_resource_files q))) /\
    oks (maybe (named wrapper_texts) (option_map rf_sounds (pp_resource_files q))) /\ oks (maybe (named wrapper_texts) (option_map rf_fonts (pp_resource_files q)))).
  { destruct (pp_resource_files q) as [f|]; [|repeat split; exact (Forall_nil _)]. cbn [maybe option_map] in *. unfold res_files_texts in H7. rewrite !oks_app in H7. tauto. }
  clear H7. destruct RF as (F0 & F1 & F2 & F3). unfold project_try_from in P. cbv zeta in P.
  apply bind_ok in P as ([ss lays] & S & P). apply ok_take_screens in S as [S L]; auto. apply bind_ok in P as (cvs & C & P). apply ok_take_custom_views in C; auto.
  assert (LC : forall A (f : A -> list str) n it (a : A) o, library_conv n it a = Ok o -> oks (f a) -> oks (maybe f o)).
  { intros A f n it a o X Y. unfold library_conv in X. destruct (str_eqb _ (lit "Y")) in X; [injection X as <-; exact Y|]. destruct (str_eqb _ (lit "N")) in X; [injection X as <-; exact (Forall_nil _)|discriminate]. }
  apply bind_ok in P as (fb & FB & P). apply (LC _ firebase_texts) in FB. 2:{ unfold firebase_texts. cbn [fb_project_id fb_app_id fb_api_key fb_storage_bucket]. rewrite !oks_cons. tauto. }
  apply bind_ok in P as (am & AM & P). apply (LC _ ad_mob_texts) in AM. 2:{ unfold ad_mob_texts. cbn [am_ad_units am_test_devices]. rewrite oks_app. tauto. }
  apply bind_ok in P as (gm & GM & P). apply (LC _ google_map_texts) in GM. 2:{ unfold google_map_texts. cbn [gm_api_key]. rewrite !oks_cons. tauto. }
  apply bind_ok in P as (im & I1 & P). apply ok_take_resources in I1; auto. apply bind_ok in P as (so & I2 & P). apply ok_take_resources in I2; auto. apply bind_ok in P as (fo & I3 & P). apply ok_take_resources in I3; auto.
  injection P as <-. unfold sw_texts. cbn [sp_custom_icon sp_metadata sp_screens sp_custom_views sp_libraries sp_resources]. rewrite !oks_app. repeat split; auto.
  - unfold libraries_texts. cbn [lb_firebase lb_ad_mob lb_google_map]. rewrite !oks_app. auto.
  - unfold resources_texts. cbn [re_images re_sounds re_fonts]. rewrite !oks_app. auto using oks_collect.
Qed.
