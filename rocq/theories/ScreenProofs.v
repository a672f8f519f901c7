(** Proofs about /repo/src/api/screen.rs and [to_screen_logic] (A_Screen.v). *)
From Verif Require Import Base Str M_File M_View M_Logic A_Block A_View A_Screen SpecBlock SpecScreen BlockProofs BlockWriteProofs BlockContentProofs BlockTripProofs.

Lemma bind_ok {E A B} (r : res E A) (f : A -> res E B) b : bind r f = Ok b <-> exists a, r = Ok a /\ f a = Ok b.
Proof.
  destruct r as [a| |]; cbn; split; try (intros (a' & H & K); congruence); try discriminate. eauto.
Qed.
Lemma map_err_ok {E F A} (f : E -> F) (r : res E A) a : map_err f r = Ok a <-> r = Ok a.
Proof. destruct r; cbn; split; congruence. Qed.

Lemma Forall2_len {A B} (P : A -> B -> Prop) l m : Forall2 P l m -> length l = length m.
Proof. induction 1; cbn; lia. Qed.

(** ** Reading containers one after the other *)
Fixpoint grab (ks : list str) (bc : smap block_container) : list block_container * smap block_container :=
  match ks with
  | [] => ([], bc)
  | k :: r => let (c, bc') := take_container k bc in let (cs, bc'') := grab r bc' in (c :: cs, bc'')
  end.
Definition mem (k : str) (ks : list str) : bool := existsb (str_eqb k) ks.
Lemma mem_in k ks : mem k ks = true <-> In k ks.
Proof.
  unfold mem. rewrite existsb_exists. split.
  - intros (x & I & E). apply str_eqb_eq in E. now subst.
  - intros I. exists k. split; [exact I|apply str_eqb_refl].
Qed.
Lemma mem_not k ks : mem k ks = false <-> ~ In k ks.
Proof. rewrite <- mem_in. destruct (mem k ks); split; congruence. Qed.
(** what is read under [k] after the keys [pre] *)
Definition rd (pre : list str) (k : str) (bc : smap block_container) : block_container :=
  if mem k pre then [] else or_empty (sget k bc).
Lemma grab_app a b bc : grab (a ++ b) bc = let (x, bc1) := grab a bc in let (y, bc2) := grab b bc1 in (x ++ y, bc2).
Proof.
  revert bc; induction a as [|k a IH]; intros bc; cbn.
  - destruct (grab b bc); reflexivity.
  - rewrite IH. destruct (grab a (sremove k bc)) as [x bc1]. destruct (grab b bc1); reflexivity.
Qed.
Lemma grab_left ks bc k : sget k (snd (grab ks bc)) = if mem k ks then None else sget k bc.
Proof.
  revert bc; induction ks as [|x ks IH]; intros bc; cbn; [reflexivity|].
  pose proof (IH (sremove x bc)) as E. destruct (grab ks (sremove x bc)) as [cs bc'']. cbn [snd] in *. rewrite E.
  change (existsb (str_eqb k) ks) with (mem k ks).
  destruct (str_eqb_spec k x) as [->|N]; cbn [orb]; destruct (mem _ ks); auto; [apply sget_remove_same|now apply sget_remove_other].
Qed.
Lemma grab_length ks bc : length (fst (grab ks bc)) = length ks.
Proof. revert bc; induction ks as [|k ks IH]; intros bc; cbn; [reflexivity|]. specialize (IH (sremove k bc)). destruct (grab ks (sremove k bc)). cbn in *. lia. Qed.
Lemma rd_after pre k k' bc : rd pre k (sremove k' bc) = rd (k' :: pre) k bc.
Proof.
  unfold rd. cbn [mem existsb]. destruct (str_eqb_spec k k') as [->|N]; cbn [orb].
  - rewrite sget_remove_same. destruct (mem k' pre); reflexivity.
  - now rewrite sget_remove_other.
Qed.
Lemma grab_each {Y} (key : Y -> str) (P : block_container -> Y -> Prop) ys : forall bc,
  Forall2 P (fst (grab (map key ys) bc)) ys <-> forall a y b, ys = a ++ y :: b -> P (rd (map key a) (key y) bc) y.
Proof.
  induction ys as [|y ys IH]; intros bc; cbn.
  - split; [|constructor]. intros _ a y b E. destruct a; discriminate.
  - specialize (IH (sremove (key y) bc)). destruct (grab (map key ys) (sremove (key y) bc)) as [cs bc'']. cbn [fst] in *. split.
    + intros H. inversion H as [|? ? ? ? H1 H2]; subst. intros a z b E. destruct a as [|x a]; cbn in E; injection E as <- ->.
      * exact H1.
      * cbn [map]. rewrite <- rd_after. now apply (proj1 IH H2 _ _ b).
    + intros H. constructor; [apply (H [] y ys eq_refl)|]. apply IH. intros a z b ->. rewrite rd_after. apply (H (y :: a) z b eq_refl).
Qed.

(** ** Writing containers one after the other *)
Definition ins_all (W : list (str * block_container)) (bc : smap block_container) : smap block_container :=
  fold_left (fun m kv => sinsert (fst kv) (snd kv) m) W bc.
Lemma ins_all_app a b bc : ins_all (a ++ b) bc = ins_all b (ins_all a bc).
Proof. apply fold_left_app. Qed.
Lemma ins_all_notin W k bc : ~ In k (map fst W) -> sget k (ins_all W bc) = sget k bc.
Proof.
  revert bc; induction W as [|[x c] W IH]; intros bc N; cbn in *; [reflexivity|]. change (sget k (ins_all W (sinsert x c bc)) = sget k bc).
  rewrite IH by tauto. apply sget_insert_other. intros ->. tauto.
Qed.
Lemma ins_all_last a k c b bc : ~ In k (map fst b) -> sget k (ins_all (a ++ (k, c) :: b) bc) = Some c.
Proof.
  intros N. rewrite ins_all_app. cbn. change (sget k (ins_all b (sinsert k c (ins_all a bc))) = Some c).
  rewrite ins_all_notin by exact N. apply sget_insert_same.
Qed.
Lemma last_key {A} (key : A -> str) k l : In k (map key l) -> exists a y b, l = a ++ y :: b /\ key y = k /\ ~ In k (map key b).
Proof.
  induction l as [|x l IH]; cbn; [intros []|]. intros H. destruct (in_dec (list_eq_dec N.eq_dec) k (map key l)) as [I|N].
  - destruct (IH I) as (a & y & b & -> & K & M). exists (x :: a), y, b. auto.
  - destruct H as [H|H]; [|contradiction]. exists [], x, l. auto.
Qed.

(** ** Several readers and writers *)
(** a name and the code stored under it *)
Notation cell := (str * blocks)%type.
Definition writes (y : cell) (c : block_container) : Prop := blocks_into (snd y) = Ok c.
Definition kbc (l : list cell) (cs : list block_container) : list (str * block_container) := combine (map fst l) cs.
Lemma kbc_app a b ca cb : length a = length ca -> kbc (a ++ b) (ca ++ cb) = kbc a ca ++ kbc b cb.
Proof.
  unfold kbc. rewrite map_app. revert ca; induction a as [|x a IH]; intros [|c ca] E; cbn in *; try discriminate; [reflexivity|]. f_equal. apply IH. lia.
Qed.
Lemma kbc_keys l cs : Forall2 writes l cs -> map fst (kbc l cs) = map fst l.
Proof. intros H. unfold kbc. induction H; cbn; [reflexivity|]. now f_equal. Qed.
Lemma last_writer l cs k : Forall2 writes l cs -> In k (map fst l) ->
  exists a z b c, l = a ++ z :: b /\ fst z = k /\ ~ In k (map fst b) /\ blocks_into (snd z) = Ok c /\ sget k (ins_all (kbc l cs) []) = Some c.
Proof.
  intros H I. destruct (last_key fst k l I) as (a & z & b & -> & K & N). apply Forall2_app_inv_l in H as (ca & cb & Ha & Hb & ->).
  inversion Hb as [|? c ? cb' H1 H2]; subst. exists a, z, b, c. repeat split; auto.
  assert (L : length a = length ca) by (eapply Forall2_len; eauto).
  rewrite kbc_app by exact L. change (kbc (z :: b) (c :: cb')) with ((fst z, c) :: kbc b cb'). apply ins_all_last. now rewrite kbc_keys.
Qed.
Lemma no_writer l cs k : Forall2 writes l cs -> ~ In k (map fst l) -> sget k (ins_all (kbc l cs) []) = None.
Proof. intros H N. rewrite ins_all_notin; [reflexivity|]. now rewrite kbc_keys. Qed.

Lemma survives_nil : survives [].
Proof. exists []. split; reflexivity. Qed.
Lemma split_in {A} (x : A) l : In x l -> exists a b, l = a ++ x :: b.
Proof. apply in_split. Qed.
Lemma cells_back (E M : list cell) cs : NoDup (map fst M) -> Forall2 writes (E ++ M) cs ->
  let bc := ins_all (kbc (E ++ M) cs) [] in
  (forall a y b, M ++ E = a ++ y :: b -> blocks_try_from (rd (map fst a) (fst y) bc) = Ok (snd y)) <->
  Forall (fun y => survives (snd y)) (M ++ E) /\
  (forall a y b, E = a ++ y :: b -> In (fst y) (map fst (M ++ a ++ b)) -> snd y = []).
Proof.
  intros ND H bc.
  assert (Z : forall y, blocks_try_from [] = Ok y -> y = []) by (intros y Q; cbn in Q; now injection Q as <-).
  assert (LM : forall a y b, M = a ++ y :: b -> exists c, blocks_into (snd y) = Ok c /\ rd (map fst a) (fst y) bc = c).
  { intros a y b ->. rewrite map_app in ND. cbn [map] in ND. apply NoDup_remove in ND as [_ ND].
    rewrite in_app_iff in ND. assert (N1 : mem (fst y) (map fst a) = false) by (apply mem_not; tauto).
    apply Forall2_app_inv_l in H as (ce & cm & H1 & H2 & Ecs). apply Forall2_app_inv_l in H2 as (ca & cb & H2 & H3 & ->).
    inversion H3 as [|? c ? cb' H4 H5]; subst. exists c. split; [exact H4|]. unfold rd. rewrite N1. unfold bc.
    rewrite kbc_app by (eapply Forall2_len; eauto). rewrite kbc_app by (eapply Forall2_len; eauto).
    change (kbc (y :: b) (c :: cb')) with ((fst y, c) :: kbc b cb'). rewrite app_assoc, ins_all_last; [reflexivity|].
    rewrite kbc_keys by exact H5. tauto. }
  assert (LE : forall a y b, E = a ++ y :: b -> ~ In (fst y) (map fst M) -> ~ In (fst y) (map fst a) ->
                exists z c, In z (y :: b) /\ fst z = fst y /\ blocks_into (snd z) = Ok c /\ rd (map fst (M ++ a)) (fst y) bc = c /\
                  (In (fst y) (map fst b) -> In z b)).
  { intros a y b -> NM NA. destruct (last_writer _ _ (fst y) H) as (a2 & z & b2 & c & E2 & K & N & I & G).
    { rewrite !map_app. cbn [map]. rewrite !in_app_iff. cbn. tauto. }
    assert (R : rd (map fst (M ++ a)) (fst y) bc = c).
    { unfold rd. replace (mem (fst y) (map fst (M ++ a))) with false; [|symmetry; apply mem_not; rewrite map_app, in_app_iff; tauto].
      unfold bc. now rewrite G. }
    assert (IZ : In z ((a ++ y :: b) ++ M)) by (rewrite E2; apply in_app_iff; right; now left).
    rewrite !in_app_iff in IZ. cbn in IZ.
    assert (NZ : ~ In z M) by (intros Q; apply NM; rewrite <- K; now apply in_map).
    assert (NZa : ~ In z a) by (intros Q; apply NA; rewrite <- K; now apply in_map).
    exists z, c. repeat split; auto; [cbn; tauto|]. intros Q.
    (* the last one with the key is not before [b] *)
    destruct (in_dec (list_eq_dec N.eq_dec) (fst y) (map fst b2)) as [Q2|Q2]; [contradiction|].
    assert (S : forall l1 l2 : list cell, l1 ++ z :: b2 = l2 -> forall p q, l2 = p ++ q -> In (fst y) (map fst q) -> In z q).
    { intros l1 l2 <-. intros p; revert l1; induction p as [|w p IH]; intros l1 q Eq Iq; cbn in Eq.
      - rewrite <- Eq. apply in_app_iff. right. now left.
      - destruct l1 as [|w' l1]; cbn in Eq.
        + injection Eq as <- Eq. exfalso. apply Q2. rewrite Eq, map_app, in_app_iff. now right.
        + injection Eq as <- Eq. eapply IH; eauto. }
    assert (X : In z (b ++ M)).
    { eapply (S a2 _ (eq_sym E2) (a ++ [y]) (b ++ M)); [|rewrite map_app, in_app_iff; now left].
      rewrite <- !app_assoc. reflexivity. }
    apply in_app_iff in X. tauto. }
  split.
  - intros R.
    assert (RM : Forall (fun y => survives (snd y)) M).
    { apply Forall_forall. intros y Iy. apply in_split in Iy as (a & b & ->). destruct (LM a y b eq_refl) as (c & I & G).
      specialize (R a y (b ++ E)). rewrite <- app_assoc in R. cbn in R. specialize (R eq_refl). rewrite G in R. exists c. auto. }
    assert (RE : forall a y b, E = a ++ y :: b -> In (fst y) (map fst (M ++ a)) -> snd y = []).
    { intros a y b Ee I. specialize (R (M ++ a) y b). rewrite Ee, <- app_assoc in R. specialize (R eq_refl).
      unfold rd in R. rewrite (proj2 (mem_in _ _) I) in R. now apply Z. }
    assert (RB : forall a y b, E = a ++ y :: b -> In (fst y) (map fst b) -> snd y = []).
    { intros a y b Ee I. destruct (in_dec (list_eq_dec N.eq_dec) (fst y) (map fst (M ++ a))) as [J|J]; [eapply RE; eauto|].
      rewrite map_app, in_app_iff in J.
      destruct (LE a y b Ee ltac:(tauto) ltac:(tauto)) as (z & c & _ & K & W & G & Iz). specialize (Iz I).
      apply in_split in Iz as (b1 & b2 & ->).
      assert (Sz : snd z = []).
      { apply (RE (a ++ y :: b1) z b2); [rewrite Ee, <- app_assoc; reflexivity|]. rewrite K, !map_app. cbn. rewrite !in_app_iff. cbn. tauto. }
      rewrite Sz in W. cbn in W. injection W as <-.
      specialize (R (M ++ a) y (b1 ++ z :: b2)). rewrite Ee, <- app_assoc in R. specialize (R eq_refl). rewrite G in R. now apply Z. }
    assert (SH : forall a y b, E = a ++ y :: b -> In (fst y) (map fst (M ++ a ++ b)) -> snd y = []).
    { intros a y b Ee I. rewrite !map_app, !in_app_iff in I. destruct I as [I|[I|I]]; [eapply RE; eauto|eapply RE; eauto|eapply RB; eauto];
        rewrite map_app, in_app_iff; tauto. }
    split; [|exact SH]. apply Forall_app. split; [exact RM|]. apply Forall_forall. intros y Iy. apply in_split in Iy as (a & b & Ee).
    destruct (in_dec (list_eq_dec N.eq_dec) (fst y) (map fst (M ++ a ++ b))) as [J|J]; [rewrite (SH a y b Ee J); apply survives_nil|].
    rewrite !map_app, !in_app_iff in J. destruct (LE a y b Ee ltac:(tauto) ltac:(tauto)) as (z & c & Iz & K & W & G & _).
    assert (z = y) as ->. { destruct Iz as [Iz|Iz]; [auto|]. exfalso. apply J. right. right. rewrite <- K. now apply in_map. }
    specialize (R (M ++ a) y b). rewrite Ee, <- app_assoc in R. specialize (R eq_refl). rewrite G in R. exists c. auto.
  - intros [S SH] a y b Eq. apply Forall_app in S as [SM SE]. rewrite Forall_forall in SM, SE.
    apply app_eq_app in Eq as (l & [[Ea El]|[Ea El]]).
    + (* y in M, or the first of E *)
      destruct l as [|x l].
      * rewrite app_nil_r in Ea. cbn in El. subst a.
        destruct (in_dec (list_eq_dec N.eq_dec) (fst y) (map fst M)) as [J|J].
        { rewrite (SH [] y b (eq_sym El)) by (cbn [app]; rewrite map_app, in_app_iff; tauto). unfold rd. rewrite (proj2 (mem_in _ _) J). reflexivity. }
        destruct (LE [] y b (eq_sym El) J (fun x => x)) as (z & c & Iz & K & W & G & _). rewrite app_nil_r in G. rewrite G.
        destruct Iz as [<-|Iz].
        { destruct (SE y) as (c' & W' & T); [rewrite <- El; now left|]. congruence. }
        rewrite (SH [] y b (eq_sym El)) by (cbn [app]; rewrite map_app, in_app_iff, <- K; right; now apply in_map).
        apply in_split in Iz as (b1 & b2 & ->).
        rewrite (SH (y :: b1) z b2 (eq_sym El)) in W by (rewrite K, !map_app, !in_app_iff; cbn; tauto). cbn in W. injection W as <-. reflexivity.
      * cbn in El. injection El as <- ->. destruct (LM a y l Ea) as (c & W & ->). destruct (SM y) as (c' & W' & T); [rewrite Ea; apply in_app_iff; right; now left|]. congruence.
    + subst a. rewrite map_app.
      destruct (in_dec (list_eq_dec N.eq_dec) (fst y) (map fst M)) as [J|J].
      { rewrite (SH l y b El) by (rewrite !map_app, !in_app_iff; tauto). unfold rd. rewrite (proj2 (mem_in _ _)); [reflexivity|]. rewrite in_app_iff. tauto. }
      destruct (in_dec (list_eq_dec N.eq_dec) (fst y) (map fst l)) as [J2|J2].
      { rewrite (SH l y b El) by (rewrite !map_app, !in_app_iff; tauto). unfold rd. rewrite (proj2 (mem_in _ _)); [reflexivity|]. rewrite in_app_iff. tauto. }
      destruct (LE l y b El J J2) as (z & c & Iz & K & W & G & _). rewrite map_app in G. rewrite G. destruct Iz as [<-|Iz].
      { destruct (SE y) as (c' & W' & T); [rewrite El; apply in_app_iff; right; now left|]. congruence. }
      rewrite (SH l y b El) by (rewrite !map_app, !in_app_iff, <- K; right; right; now apply in_map).
      apply in_split in Iz as (b1 & b2 & ->).
      rewrite (SH (l ++ y :: b1) z b2) in W; [|rewrite El, <- app_assoc; reflexivity|rewrite K, !map_app, !in_app_iff; cbn; rewrite ?in_app_iff; tauto].
      cbn in W. injection W as <-. reflexivity.
Qed.

(** ** Writing the logic of a screen *)
Definition ecell (e : aevent) : cell := (get_block_container_id e, ae_code e).
Definition mcell (kv : str * amore_block) : cell := (more_block_container (fst kv), am_code (snd kv)).
Definition raw_event (e : aevent) : event := fst (into_parser_event e).
Definition not_on_create (e : aevent) : bool := negb (str_eqb (ae_name e) ON_CREATE).
Definition raw_events (l : list aevent) : list event := map raw_event (filter not_on_create l).
Definition raw_more_blocks (l : smap amore_block) : smap more_block :=
  map (fun kv => (fst kv, fst (into_parser_more_block (snd kv)))) l.
Lemma raw_event_name e : ev_name (raw_event e) = ae_name e.
Proof. unfold raw_event. cbn. destruct (ae_type e); reflexivity. Qed.
Lemma raw_events_cons e l : raw_events (e :: l) = if str_eqb (ev_name (raw_event e)) ON_CREATE then raw_events l else raw_event e :: raw_events l.
Proof. unfold raw_events. cbn [filter]. unfold not_on_create at 1. rewrite raw_event_name. destruct (str_eqb _ _); reflexivity. Qed.
Lemma put_events_iff l : forall bc es bc', put_events l bc = Ok (es, bc') <->
  exists cs, Forall2 writes (map ecell l) cs /\ es = raw_events l /\ bc' = ins_all (kbc (map ecell l) cs) bc.
Proof.
  induction l as [|e l IH]; intros bc es bc'; cbn [put_events].
  - split.
    + intros [= <- <-]. exists []. repeat split. constructor.
    + intros (cs & H & -> & ->). inversion H. reflexivity.
  - unfold into_parser_event. rewrite bind_ok. split.
    + intros (c & Hc & H). apply bind_ok in H as ([es' bc1] & H & E). injection E as <- <-. apply IH in H as (cs & Hcs & -> & ->).
      exists (c :: cs). split; [constructor; auto|]. split; [|reflexivity].
      now rewrite raw_events_cons.
    + intros (cs & H & -> & ->). inversion H as [|? c ? cs' H1 H2]; subst. exists c. split; [exact H1|]. apply bind_ok.
      exists (raw_events l, ins_all (kbc (map ecell l) cs') (sinsert (get_block_container_id e) c bc)). split; [apply IH; eauto|].
      now rewrite raw_events_cons.
Qed.
Lemma put_more_blocks_iff l : forall bc ms bc', put_more_blocks l bc = Ok (ms, bc') <->
  exists cs, Forall2 writes (map mcell l) cs /\ ms = raw_more_blocks l /\ bc' = ins_all (kbc (map mcell l) cs) bc.
Proof.
  induction l as [|[id m] l IH]; intros bc ms bc'; cbn [put_more_blocks].
  - split.
    + intros [= <- <-]. exists []. repeat split. constructor.
    + intros (cs & H & -> & ->). inversion H. reflexivity.
  - unfold into_parser_more_block. rewrite bind_ok. split.
    + intros (c & Hc & H). apply bind_ok in H as ([ms' bc1] & H & E). injection E as <- <-. apply IH in H as (cs & Hcs & -> & ->).
      exists (c :: cs). split; [constructor; auto|]. split; reflexivity.
    + intros (cs & H & -> & ->). inversion H as [|? c ? cs' H1 H2]; subst. exists c. split; [exact H1|]. apply bind_ok.
      exists (raw_more_blocks l, ins_all (kbc (map mcell l) cs') (sinsert (more_block_container id) c bc)). split; [apply IH; eauto|reflexivity].
Qed.
Definition cells (s : screen) : list cell := map ecell (sc_events s) ++ map mcell (sc_more_blocks s).
Definition logic_with (s : screen) (cs : list block_container) : screen_logic :=
  {| sl_name := sc_java_name s; sl_block_containers := ins_all (kbc (cells s) cs) []; sl_variables := Some (sc_variables s);
     sl_list_variables := Some (sc_list_variables s);
     sl_components := Some (map (fun kv => into_parser_component (snd kv) (fst kv)) (sc_components s));
     sl_events := Some (raw_events (sc_events s)); sl_more_blocks := Some (scollect (raw_more_blocks (sc_more_blocks s))) |}.
Lemma screen_logic_iff s lg : screen_logic_of s = Ok lg <-> exists cs, Forall2 writes (cells s) cs /\ lg = logic_with s cs.
Proof.
  unfold screen_logic_of, to_screen_logic. rewrite bind_ok. split.
  - intros ([es bc] & H & K). apply put_events_iff in H as (cs & H & -> & ->). apply bind_ok in K as ([ms bc'] & K & E).
    apply put_more_blocks_iff in K as (cs' & K & -> & ->). injection E as <-. exists (cs ++ cs'). split; [now apply Forall2_app|].
    unfold logic_with, cells. rewrite kbc_app by (eapply Forall2_len; eauto). now rewrite ins_all_app.
  - intros (cs & H & ->). apply Forall2_app_inv_l in H as (ce & cm & H1 & H2 & ->).
    exists (raw_events (sc_events s), ins_all (kbc (map ecell (sc_events s)) ce) []). split; [apply put_events_iff; eauto|].
    apply bind_ok. exists (raw_more_blocks (sc_more_blocks s), ins_all (kbc (map mcell (sc_more_blocks s)) cm) (ins_all (kbc (map ecell (sc_events s)) ce) [])).
    split; [apply put_more_blocks_iff; eauto|]. unfold logic_with, cells. rewrite kbc_app by (eapply Forall2_len; eauto). now rewrite ins_all_app.
Qed.

(** ** Reading it *)
Definition strip (e : aevent) : aevent := {| ae_name := ae_name e; ae_type := ae_type e; ae_code := [] |}.
Lemma take_events_iff l : forall bc es, take_events l bc = Ok es <->
  Forall2 (fun e a => event_try_from e = Ok (strip a)) l es /\
  Forall2 (fun c a => blocks_try_from c = Ok (ae_code a)) (fst (grab (map get_block_container_id es) bc)) es.
Proof.
  induction l as [|e l IH]; intros bc es; cbn [take_events].
  - split; [intros [= <-]; split; constructor|]. intros [H _]. inversion H. reflexivity.
  - rewrite bind_ok. split.
    + intros (ev & H & K). apply map_err_ok in H. unfold take_container in K. apply bind_ok in K as (code & K1 & K2). apply map_err_ok in K1.
      apply bind_ok in K2 as (es' & K2 & E). injection E as <-. apply IH in K2 as [K2 K3].
      assert (S : strip ev = ev) by (unfold event_try_from in H; destruct (event_type_from e); cbn in H; try discriminate; injection H as <-; reflexivity).
      split; [constructor; [unfold strip; cbn; fold (strip ev); now rewrite S|exact K2]|].
      cbn [map]. change (get_block_container_id {| ae_name := ae_name ev; ae_type := ae_type ev; ae_code := code |}) with (get_block_container_id ev).
      cbn [grab take_container]. destruct (grab (map get_block_container_id es') (sremove (get_block_container_id ev) bc)) as [cs bc'']. cbn [fst] in *.
      constructor; auto.
    + intros [H K]. inversion H as [|? a ? es' H1 H2]; subst. exists (strip a). split; [now apply map_err_ok|]. unfold take_container.
      change (get_block_container_id (strip a)) with (get_block_container_id a). cbn [map grab take_container] in K. specialize (IH (sremove (get_block_container_id a) bc) es').
      destruct (grab (map get_block_container_id es') (sremove (get_block_container_id a) bc)) as [cs bc'']. cbn [fst] in *.
      inversion K as [|? ? ? ? K1 K2]; subst. apply bind_ok. exists (ae_code a). split; [now apply map_err_ok|]. apply bind_ok.
      exists es'. split; [now apply IH|]. destruct a; reflexivity.
Qed.
Definition reads_more_block (kv : str * more_block) (r : str * amore_block) : Prop :=
  fst r = fst kv /\ am_name (snd r) = fst kv /\ parse_wo_params (mb_spec (snd kv)) = Ok (am_spec (snd r)).
Lemma take_more_blocks_iff l : forall bc ms bc', take_more_blocks l bc = Ok (ms, bc') <->
  Forall2 reads_more_block l ms /\
  Forall2 (fun c r => blocks_try_from c = Ok (am_code (snd r))) (fst (grab (map (fun r => more_block_container (fst r)) ms) bc)) ms /\
  bc' = snd (grab (map (fun r => more_block_container (fst r)) ms) bc).
Proof.
  induction l as [|[id mb] l IH]; intros bc ms bc'; cbn [take_more_blocks].
  - split; [intros [= <- <-]; repeat split; constructor|]. intros (H & _ & ->). inversion H. reflexivity.
  - rewrite bind_ok. split.
    + intros (spec & H & K). apply map_err_ok in H. unfold take_container in K. apply bind_ok in K as (code & K1 & K2). apply map_err_ok in K1.
      apply bind_ok in K2 as ([ms' bc1] & K2 & E). injection E as <- <-. apply IH in K2 as (K2 & K3 & ->).
      split; [constructor; [repeat split; exact H|exact K2]|]. cbn [map fst grab take_container].
      destruct (grab _ (sremove (more_block_container id) bc)) as [cs bc'']. cbn [fst snd] in *. split; [constructor; auto|reflexivity].
    + intros (H & K & ->). inversion H as [|? [id' a] ? ms' (H1 & H2 & H3) H4]; subst. cbn in H1, H2, H3. subst id'. exists (am_spec a). split; [now apply map_err_ok|].
      unfold take_container. cbn [map fst grab take_container] in *. specialize (IH (sremove (more_block_container id) bc) ms').
      destruct (grab (map _ ms') (sremove (more_block_container id) bc)) as [cs bc'']. cbn [fst snd] in *.
      inversion K as [|? ? ? ? K1 K2]; subst. apply bind_ok. exists (am_code a). split; [now apply map_err_ok|]. apply bind_ok.
      exists (ms', bc''). split; [now apply IH|]. destruct a; cbn in *; subst; reflexivity.
Qed.
Lemma take_components_back m : take_components (map (fun kv => into_parser_component (snd kv) (fst kv)) m) = Ok m.
Proof.
  induction m as [|[id k] m IH]; cbn [map take_components fst snd]; [reflexivity|].
  replace (from_parser_component (into_parser_component k id)) with (@Ok unknown_component _ k) by (destruct k; reflexivity). cbn [bind]. rewrite IH. cbn [bind].
  destruct k; reflexivity.
Qed.

(** ** There and back *)
Lemma event_back e : event_try_from (raw_event e) = Ok (strip e).
Proof. unfold raw_event. cbn. destruct (ae_type e) eqn:T; cbn; unfold strip; rewrite T; reflexivity. Qed.
Lemma ends_initialize id : more_block_container id <> INITIALIZE.
Proof.
  unfold more_block_container. intros H. apply (f_equal (@rev N)) in H. rewrite rev_app_distr in H.
  change (107 :: skipn 1 (rev (lit "_moreBlock")) ++ rev id = 99 :: skipn 1 (rev INITIALIZE)) in H. discriminate.
Qed.
Lemma more_block_container_inj a b : more_block_container a = more_block_container b -> a = b.
Proof. apply app_inv_tail. Qed.
Lemma filter_all {A} (f : A -> bool) l : (forall x, In x l -> f x = true) -> filter f l = l.
Proof. induction l as [|x l IH]; cbn; intros H; [reflexivity|]. rewrite (H x) by now left. f_equal. apply IH. auto. Qed.
Lemma filter_short {A} (f : A -> bool) l : length (filter f l) = length l -> forall x, In x l -> f x = true.
Proof.
  induction l as [|x l IH]; cbn; intros H y I; [contradiction|].
  assert (L : (length (filter f l) <= length l)%nat) by (clear; induction l as [|z l IH]; cbn; [lia|]; destruct (f z); cbn; lia).
  destruct (f x) eqn:F; cbn in H; [|lia]. destruct I as [<-|I]; auto.
Qed.
Lemma on_create_iff l (mem_init : bool) :
  (mem_init = true <-> exists e, In e l /\ get_block_container_id e = INITIALIZE) ->
  Forall2 (fun e a => event_try_from e = Ok (strip a)) ((if mem_init then [on_create_event] else []) ++ raw_events l) l <-> on_create_first l.
Proof.
  intros MI.
  assert (NC : forall x, not_on_create x = true <-> ae_name x <> ON_CREATE).
  { intros x. unfold not_on_create. destruct (str_eqb_spec (ae_name x) ON_CREATE); cbn; (split; [try discriminate; auto|try contradiction; auto]). }
  assert (Self : forall m, Forall2 (fun e a => event_try_from e = Ok (strip a)) (map raw_event m) m).
  { induction m; cbn; constructor; auto. apply event_back. }
  split.
  - intros H. destruct mem_init; cbn [app] in H.
    + inversion H as [|? e ? r H1 H2]; subst. right. exists e, r. split; [reflexivity|].
      cbn in H1. injection H1 as H1a H1b. split; [now symmetry|]. split; [now symmetry|].
      apply Forall2_len in H2. unfold raw_events in H2. rewrite map_length in H2. cbn [filter] in H2.
      assert (F : not_on_create e = false) by (unfold not_on_create; rewrite <- H1a; reflexivity). rewrite F in H2.
      intros x I. apply NC. eapply filter_short; eauto.
    + left. apply Forall2_len in H. unfold raw_events in H. rewrite map_length in H. intros e I. split.
      * apply NC. eapply filter_short; eauto.
      * intros E. destruct MI as [_ MI]. assert (false = true) by (apply MI; eauto). discriminate.
  - intros [H|(e & r & -> & N & T & H)].
    + assert (mem_init = false) as ->. { destruct mem_init; [|reflexivity]. destruct (proj1 MI eq_refl) as (e & I & E). apply H in I. tauto. }
      cbn [app]. unfold raw_events. rewrite filter_all by (intros x I; apply NC, H, I). apply Self.
    + assert (mem_init = true) as ->.
      { apply MI. exists e. split; [now left|]. unfold get_block_container_id. rewrite N, T. reflexivity. }
      cbn [app]. unfold raw_events. cbn [filter]. replace (not_on_create e) with false by (unfold not_on_create; rewrite N; reflexivity).
      rewrite filter_all by (intros x I; apply NC, H, I). constructor; [|apply Self]. unfold strip. rewrite N, T. reflexivity.
Qed.
Lemma mem_written (l : list cell) cs k : Forall2 writes l cs -> smem k (ins_all (kbc l cs) []) = true <-> In k (map fst l).
Proof.
  intros H. change (smem k (ins_all (kbc l cs) [])) with (match sget k (ins_all (kbc l cs) []) with Some _ => true | None => false end).
  destruct (in_dec (list_eq_dec N.eq_dec) k (map fst l)) as [I|I].
  - destruct (last_writer _ _ _ H I) as (? & ? & ? & c & _ & _ & _ & _ & ->). tauto.
  - rewrite no_writer by auto. split; [discriminate|contradiction].
Qed.
Lemma init_written s cs : Forall2 writes (cells s) cs ->
  smem INITIALIZE (sl_block_containers (logic_with s cs)) = true <-> exists e, In e (sc_events s) /\ get_block_container_id e = INITIALIZE.
Proof.
  intros H. cbn [logic_with sl_block_containers]. rewrite mem_written by exact H. unfold cells. rewrite map_app, in_app_iff, !map_map, !in_map_iff. split.
  - intros [(e & E & I)|(kv & E & _)]; [exists e; split; [exact I|exact E]|]. exfalso. revert E. apply ends_initialize.
  - intros (e & I & E). left. exists e. split; [exact E|exact I].
Qed.

Lemma shared_cells s : shared_empty s <->
  forall a y b, map ecell (sc_events s) = a ++ y :: b -> In (fst y) (map fst (map mcell (sc_more_blocks s) ++ a ++ b)) -> snd y = [].
Proof.
  unfold shared_empty. split.
  - intros H a y b E I. apply map_eq_app in E as (a' & r & Es & <- & Er). apply map_eq_cons in Er as (e & b' & -> & <- & <-). cbn [snd ecell].
    apply (H a' e b' Es). rewrite !map_app, !in_app_iff, !map_map, !in_map_iff in I. cbn [fst ecell mcell] in I.
    destruct I as [(kv & E & I)|[(o & E & I)|(o & E & I)]]; [right; eauto| |]; left; exists o; rewrite in_app_iff; auto.
  - intros H a e b E I. specialize (H (map ecell a) (ecell e) (map ecell b)). cbn [snd ecell] in H. apply H.
    + rewrite E, map_app. reflexivity.
    + rewrite !map_app, !in_app_iff, !map_map, !in_map_iff. cbn [fst ecell mcell]. destruct I as [(o & I & E')|(kv & I & E')]; [|left; eauto].
      apply in_app_iff in I as [I|I]; right; [left|right]; eauto.
Qed.
Lemma survives_into l : survives l -> exists c, blocks_into l = Ok c.
Proof. intros (c & H & _). eauto. Qed.
Lemma writes_exists (l : list cell) : Forall (fun y => survives (snd y)) l -> exists cs, Forall2 writes l cs.
Proof.
  induction 1 as [|y l H _ (cs & IH)]; [exists []; constructor|]. apply survives_into in H as (c & H). exists (c :: cs). constructor; auto.
Qed.
Lemma more_blocks_read l : NoDup (map fst l) -> forall ms,
  (ms = l /\ Forall2 reads_more_block (scollect (raw_more_blocks l)) ms) <->
  (ms = l /\ Forall (fun kv => am_name (snd kv) = fst kv /\ am_spec (snd kv) <> [] /\ Forall plain_item (am_spec (snd kv))) l).
Proof.
  intros ND ms. rewrite scollect_nodup by (unfold raw_more_blocks; rewrite map_map; exact ND). clear ND.
  split; intros [-> H]; (split; [reflexivity|]).
  - induction l as [|[id m] l IH]; [constructor|]. cbn in H. inversion H as [|? ? ? ? (H1 & H2 & H3) H4]; subst. constructor; [|now apply IH].
    cbn in *. split; [exact H2|]. now apply parse_printed.
  - induction l as [|[id m] l IH]; [constructor|]. inversion H as [|? ? (H1 & H2) H4]; subst. cbn. constructor; [|now apply IH].
    repeat split; [exact H1|]. cbn. now apply parse_printed.
Qed.
Lemma app_inj_len {A} (a b c d : list A) : a ++ b = c ++ d -> length c = length a -> a = c /\ b = d.
Proof.
  revert c; induction a as [|x a IH]; intros [|y c] E L; cbn in *; try discriminate; [auto|]. injection E as <- E. injection L as L.
  destruct (IH c E L) as [-> ->]. auto.
Qed.
Lemma read_cells s bc :
  (Forall2 (fun c r => blocks_try_from c = Ok (am_code (snd r))) (fst (grab (map (fun r => more_block_container (fst r)) (sc_more_blocks s)) bc)) (sc_more_blocks s) /\
   Forall2 (fun c a => blocks_try_from c = Ok (ae_code a))
     (fst (grab (map get_block_container_id (sc_events s)) (snd (grab (map (fun r => more_block_container (fst r)) (sc_more_blocks s)) bc)))) (sc_events s)) <->
  Forall2 (fun c y => blocks_try_from c = Ok (snd y))
    (fst (grab (map fst (map mcell (sc_more_blocks s) ++ map ecell (sc_events s))) bc)) (map mcell (sc_more_blocks s) ++ map ecell (sc_events s)).
Proof.
  assert (X : forall {A B C} (f : A -> B) (P : C -> B -> Prop) l m, Forall2 P l (map f m) <-> Forall2 (fun c a => P c (f a)) l m).
  { intros A B C f P l m. split; revert m; induction l; intros [|b m] H; inversion H; subst; cbn; constructor; auto. }
  rewrite map_app, !map_map, grab_app. cbn [fst mcell ecell].
  pose proof (grab_length (map (fun r => more_block_container (fst r)) (sc_more_blocks s)) bc) as L. rewrite map_length in L.
  destruct (grab (map (fun r => more_block_container (fst r)) (sc_more_blocks s)) bc) as [cs bc1]. cbn [fst snd] in *.
  destruct (grab (map get_block_container_id (sc_events s)) bc1) as [cs' bc2]. cbn [fst]. split.
  - intros [H K]. apply Forall2_app; apply X; auto.
  - intros H. apply Forall2_app_inv_l in H as (l1 & l2 & H1 & H2 & E).
    assert (L1 : length l1 = length (map mcell (sc_more_blocks s))) by (rewrite map_length, <- L; symmetry; eapply Forall2_len; eauto).
    apply app_inj_len in E as [<- <-]; [|auto]. split; [apply X in H1; exact H1|apply X in H2; exact H2].
Qed.
Lemma with_on_create_written s cs : Forall2 writes (cells s) cs ->
  or_empty (with_on_create (logic_with s cs)) =
  (if smem INITIALIZE (sl_block_containers (logic_with s cs)) then [on_create_event] else []) ++ raw_events (sc_events s).
Proof. intros H. unfold with_on_create. destruct (smem _ _); reflexivity. Qed.
Lemma reads_keys l ms : Forall2 reads_more_block l ms -> map fst ms = map fst l.
Proof. induction 1 as [|x y l ms (H & _) _ IH]; cbn; [reflexivity|]. now rewrite H, IH. Qed.
Lemma mcell_nodup l : NoDup (map fst l) -> NoDup (map fst (map mcell l)).
Proof.
  intros H. replace (map fst (map mcell l)) with (map more_block_container (map fst l)) by (rewrite !map_map; reflexivity). apply FinFun.Injective_map_NoDup; [|exact H].
  intros a b. apply more_block_container_inj.
Qed.
Lemma logic_with_back s cs : NoDup (map fst (sc_more_blocks s)) -> Forall2 writes (cells s) cs ->
  (exists ms bc es, take_more_blocks (or_empty (sl_more_blocks (logic_with s cs))) (sl_block_containers (logic_with s cs)) = Ok (ms, bc) /\
     take_events (or_empty (with_on_create (logic_with s cs))) bc = Ok es /\ scollect ms = sc_more_blocks s /\ es = sc_events s) <-> good_screen s.
Proof.
  intros ND H. rewrite with_on_create_written by exact H. cbn [logic_with sl_more_blocks or_empty]. unfold good_screen.
  rewrite <- (on_create_iff _ _ (init_written s cs H)).
  pose proof (cells_back (map ecell (sc_events s)) (map mcell (sc_more_blocks s)) cs (mcell_nodup _ ND) H) as CB. cbv zeta in CB.
  fold (cells s) in CB. rewrite <- shared_cells in CB.
  rewrite <- (grab_each fst (fun c y => blocks_try_from c = Ok (snd y)) (map mcell (sc_more_blocks s) ++ map ecell (sc_events s)) (ins_all (kbc (cells s) cs) [])) in CB.
  rewrite <- (read_cells s) in CB. cbn [sl_block_containers logic_with].
  assert (SV : Forall (fun y => survives (snd y)) (map mcell (sc_more_blocks s) ++ map ecell (sc_events s)) <->
    Forall (fun kv => survives (am_code (snd kv))) (sc_more_blocks s) /\ Forall (fun e => survives (ae_code e)) (sc_events s)).
  { rewrite Forall_app, !Forall_map. reflexivity. }
  assert (NR : NoDup (map fst (scollect (raw_more_blocks (sc_more_blocks s))))).
  { rewrite scollect_nodup; unfold raw_more_blocks; rewrite map_map; exact ND. }
  split.
  - intros (ms & bc & es & T & E & Es & ->). apply take_more_blocks_iff in T as (T1 & T2 & ->). apply take_events_iff in E as (E1 & E2).
    assert (ms = sc_more_blocks s) as ->.
    { rewrite <- Es. symmetry. apply scollect_nodup. now rewrite (reads_keys _ _ T1). }
    destruct (proj1 CB (conj T2 E2)) as [C1 C2]. apply SV in C1 as [C1 C3].
    destruct (proj1 (more_blocks_read _ ND _) (conj eq_refl T1)) as [_ M].
    split; [|split; [exact C3|split; [exact C2|exact E1]]].
    rewrite Forall_forall in *. intros kv I. specialize (M kv I). specialize (C1 kv I). unfold good_more_block. tauto.
  - intros (G & S & SH & O).
    assert (G1 : Forall (fun kv => survives (am_code (snd kv))) (sc_more_blocks s)) by (eapply Forall_impl; [|exact G]; intros kv Q; apply Q).
    destruct (proj2 CB (conj (proj2 SV (conj G1 S)) SH)) as [T2 E2].
    destruct (proj2 (more_blocks_read _ ND (sc_more_blocks s))) as [_ T1].
    { split; [reflexivity|]. eapply Forall_impl; [|exact G]. intros kv Q. unfold good_more_block in Q. tauto. }
    exists (sc_more_blocks s). eexists. exists (sc_events s). split; [|split; [|split; [now apply scollect_nodup|reflexivity]]].
    + apply take_more_blocks_iff. split; [exact T1|]. split; [exact T2|reflexivity].
    + apply take_events_iff. split; [exact O|exact E2].
Qed.
Lemma from_parsed_logic ln jn fe ve s cs fab views s' : NoDup (map fst (sc_components s)) -> parse_raw_layout ve = Ok views ->
  screen_from_parsed ln jn fe ve (logic_with s cs) fab = Ok s' <->
  exists ms bc es, take_more_blocks (or_empty (sl_more_blocks (logic_with s cs))) (sl_block_containers (logic_with s cs)) = Ok (ms, bc) /\
    take_events (or_empty (with_on_create (logic_with s cs))) bc = Ok es /\
    s' = {| sc_layout_name := ln; sc_java_name := jn; sc_layout := views; sc_variables := sc_variables s;
            sc_list_variables := sc_list_variables s; sc_more_blocks := scollect ms; sc_components := sc_components s;
            sc_events := es; sc_fab := fab; sc_fullscreen := ao_fullscreen (fi_options fe); sc_toolbar := ao_toolbar (fi_options fe);
            sc_drawer := ao_drawer (fi_options fe); sc_fab_enabled := ao_fab (fi_options fe);
            sc_orientation := fi_orientation fe; sc_theme := fi_theme fe; sc_keyboard := fi_keyboard fe |}.
Proof.
  intros NC V. unfold screen_from_parsed. cbv zeta. rewrite V. cbn [map_err bind].
  assert (C : map_err SeUnknownComponent (take_components (or_empty (sl_components (logic_with s cs)))) = Ok (sc_components s)).
  { cbn [logic_with sl_components or_empty]. now rewrite take_components_back. }
  rewrite C. split.
  - intros K. apply bind_ok in K as ([ms bc] & K1 & K2). cbn [bind] in K2. apply bind_ok in K2 as (es & K2 & K3). injection K3 as <-.
    exists ms, bc, es. split; [exact K1|]. split; [exact K2|]. rewrite (scollect_nodup (sc_components s) NC). reflexivity.
  - intros (ms & bc & es & K1 & K2 & ->). apply bind_ok. exists (ms, bc). split; [exact K1|]. cbn [bind]. apply bind_ok. exists es. split; [exact K2|].
    rewrite (scollect_nodup (sc_components s) NC). reflexivity.
Qed.
Lemma logic_back_iff s ln jn fe ve fab views : NoDup (map fst (sc_more_blocks s)) -> NoDup (map fst (sc_components s)) -> parse_raw_layout ve = Ok views ->
  (exists lg s', screen_logic_of s = Ok lg /\ screen_from_parsed ln jn fe ve lg fab = Ok s' /\ same_logic s s') <-> good_screen s.
Proof.
  intros NM NC V. split.
  - intros (lg & s' & H & K & S). apply screen_logic_iff in H as (cs & H & ->). apply (from_parsed_logic _ _ _ _ _ _ _ _ _ NC V) in K as (ms & bc & es & K1 & K2 & ->).
    apply (logic_with_back s cs NM H). exists ms, bc, es. unfold same_logic in S. cbn in S. repeat split; try tauto.
  - intros G.
    assert (W : exists cs, Forall2 writes (cells s) cs).
    { apply writes_exists. unfold cells. rewrite Forall_app, !Forall_map. destruct G as (G1 & G2 & _). split; [exact G2|].
      eapply Forall_impl; [|exact G1]. intros kv Q. apply Q. }
    destruct W as (cs & W). destruct (proj2 (logic_with_back s cs NM W) G) as (ms & bc & es & K1 & K2 & K3 & K4).
    exists (logic_with s cs). eexists. split; [apply screen_logic_iff; eauto|]. split.
    + apply (from_parsed_logic _ _ _ _ _ _ _ _ _ NC V). exists ms, bc, es. split; [exact K1|]. split; [exact K2|reflexivity].
    + unfold same_logic. cbn. repeat split; auto.
Qed.

(** the code that survives, in terms of the blocks (C31); ids must fit into an i32 *)
Lemma kept_no_holes b : kept b -> no_holes b.
Proof.
  assert (LV : forall (a : argument ablock), plain_value a -> ~ has_hole (SParam a) /\ item_all no_holes (SParam a)).
  { intros [n v|n v|n v|n v] H; destruct v; cbn in *; try contradiction; auto. }
  assert (LF : forall x, leaf x -> no_holes x).
  { intros [s1 s2 col op items ty] (E1 & E2 & _ & _ & F). cbn [ab_sub_stack1 ab_sub_stack2 ab_content] in *. subst. cbn [no_holes sub_all].
    assert (Q : Forall (fun i => ~ has_hole i) items /\ items_all no_holes items).
    { induction F as [|i items H F IH]; [split; [constructor|exact I]|]. destruct IH as [IH1 IH2]. destruct i as [t|a].
      - split; [constructor; auto|cbn; auto].
      - destruct H as [_ H]. destruct (LV a H) as [L1 L2]. split; [constructor; auto|]. cbn [items_all]. auto. }
    tauto. }
  destruct b as [s1 s2 col op items ty]. intros (K1 & K2 & _ & _ & F). cbn [ab_sub_stack1 ab_sub_stack2 ab_content] in *. cbn [no_holes].
  assert (SS : forall s, kept_stack s -> sub_all no_holes s).
  { intros s [->|(x & -> & L)]; cbn; auto. }
  assert (Q : Forall (fun i => ~ has_hole i) items /\ items_all no_holes items).
  { clear K1 K2. induction F as [|i items H F IH]; [split; [constructor|exact I]|]. destruct IH as [IH1 IH2]. destruct i as [t|a].
    - split; [constructor; auto|cbn; auto].
    - destruct H as [_ H].
      assert (L : ~ has_hole (SParam a) /\ item_all no_holes (SParam a)).
      { destruct a as [n v|n v|n v|n v]; destruct v; cbn in H |- *; try contradiction; auto; destruct H as [H _]; auto. }
      split; [constructor; tauto|]. cbn [items_all]. tauto. }
  split; [tauto|]. split; [tauto|]. auto.
Qed.
Lemma survives_kept l : 9 + N.of_nat (blocks_size l) < 2 ^ 31 -> survives l <-> Forall kept l.
Proof.
  intros B. split.
  - intros (c & H & K). pose proof (into_sized _ _ H) as L. apply (trip_iff l c H) in K; [exact K|]. now rewrite L.
  - intros H. destruct (proj2 (into_total l B)) as (c & Hc). { eapply Forall_impl; [|exact H]. apply kept_no_holes. }
    exists c. split; [exact Hc|]. pose proof (into_sized _ _ Hc) as L. apply (trip_iff l c Hc); [now rewrite L|exact H].
Qed.
