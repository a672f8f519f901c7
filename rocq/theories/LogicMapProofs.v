(** Proofs about the screens read from logic text: lookups, order, what is lost, panics *)
From Coq Require Import Permutation.
From Verif Require Import Base Spec Str Dec Json JsonProofs Recs RecsProofs LinesProofs FileProofs M_Color ColorProofs M_Logic LogicProofs.
From Verif Require Import LogicFileProofs.

(** ** the screens after a list of sections *)
Lemma supdate_keys k f m : map fst (supdate k f m) = map fst m.
Proof. induction m as [|[k' v] m IH]; [reflexivity|]. cbn. destruct (str_eqb k k'); cbn; congruence. Qed.
Lemma sget_supdate_same k f m v : sget k m = Some v -> sget k (supdate k f m) = Some (f v).
Proof.
  induction m as [|[k' w] m IH]; cbn; [discriminate|]. destruct (str_eqb k k') eqn:E; cbn; rewrite E; [congruence|auto].
Qed.
Lemma sget_supdate_other k k' f m : k <> k' -> sget k (supdate k' f m) = sget k m.
Proof.
  intros H. induction m as [|[a w] m IH]; cbn; [reflexivity|]. destruct (str_eqb_spec k' a) as [->|]; cbn.
  - destruct (str_eqb_spec k a); [contradiction|reflexivity].
  - destruct (str_eqb k a); auto.
Qed.
Definition or_empty (k : str) (o : option screen_logic) : screen_logic := match o with Some v => v | None => screen_new_empty k end.
Lemma entry_same mv k f m : sget k (entry_update mv k f m) = Some (f (or_empty k (sget k m))).
Proof.
  unfold entry_update. destruct (sget k m) as [v|] eqn:E; cbn [or_empty].
  - destruct mv; [|now apply sget_supdate_same]. rewrite sget_app, sget_remove_same. cbn. now rewrite str_eqb_refl.
  - rewrite sget_app, E. cbn. now rewrite str_eqb_refl.
Qed.
Lemma entry_other mv k k' f m : k <> k' -> sget k (entry_update mv k' f m) = sget k m.
Proof.
  intros H. unfold entry_update. assert (X : forall w, sget k [(k', w)] = (None : option screen_logic)).
  { intros w. cbn. destruct (str_eqb_spec k k'); [contradiction|reflexivity]. }
  destruct (sget k' m) as [v|] eqn:E.
  - destruct mv; [|now apply sget_supdate_other]. rewrite sget_app, sget_remove_other, X by auto. now destruct (sget k m).
  - rewrite sget_app, X. now destruct (sget k m).
Qed.
Fixpoint kremove (k : str) (l : list str) : list str :=
  match l with [] => [] | x :: r => if str_eqb k x then kremove k r else x :: kremove k r end.
Lemma kremove_in k l x : In x (kremove k l) <-> x <> k /\ In x l.
Proof.
  induction l as [|y l IH]; cbn; [tauto|]. destruct (str_eqb_spec k y) as [->|]; cbn; rewrite IH.
  - split; [intros []; auto|]. intros [Hn [He|Hi]]; [congruence|auto].
  - split; [intros [|[]]; subst; auto|intros [? [|]]; auto].
Qed.
Lemma kremove_notin k l : ~ In k l -> kremove k l = l.
Proof. induction l as [|x l IH]; cbn; auto. intros H. destruct (str_eqb_spec k x); [subst; tauto|]. f_equal. tauto. Qed.
Lemma kremove_app k a b : kremove k (a ++ b) = kremove k a ++ kremove k b.
Proof. induction a as [|x a IH]; cbn; auto. destruct (str_eqb k x); cbn; congruence. Qed.
Lemma kremove_idem k l : kremove k (kremove k l) = kremove k l.
Proof. apply kremove_notin. rewrite kremove_in. tauto. Qed.
Lemma sremove_fst k (m : logic) : map fst (sremove k m) = kremove k (map fst m).
Proof. induction m as [|[k' v] m IH]; [reflexivity|]. cbn. fold (@sremove screen_logic). destruct (str_eqb k k'); cbn; congruence. Qed.
Lemma sget_none_notin k (m : logic) : sget k m = None -> ~ In k (map fst m).
Proof.
  induction m as [|[k' v] m IH]; cbn; [tauto|]. destruct (str_eqb_spec k k'); [discriminate|]. intros E [H|H]; [congruence|]. now apply IH.
Qed.
Lemma entry_keys_true k f m : map fst (entry_update true k f m) = kremove k (map fst m) ++ [k].
Proof.
  unfold entry_update. destruct (sget k m) as [v|] eqn:E; rewrite map_app; cbn [map fst]; [now rewrite sremove_fst|].
  now rewrite kremove_notin by now apply sget_none_notin.
Qed.
Lemma entry_keys_false k f m : map fst (entry_update false k f m) = if smem k m then map fst m else map fst m ++ [k].
Proof.
  unfold entry_update, smem, lmem. fold (@sget screen_logic). destruct (sget k m) as [v|] eqn:E; [apply supdate_keys|]. now rewrite map_app.
Qed.
Lemma kremove_nodup k l : NoDup l -> NoDup (kremove k l).
Proof.
  induction l as [|x l IH]; cbn; auto. intros H. inversion H; subst. destruct (str_eqb k x); auto. constructor; auto. rewrite kremove_in. tauto.
Qed.
Lemma nodup_snoc (l : list str) k : NoDup l -> ~ In k l -> NoDup (l ++ [k]).
Proof.
  intros H Hk. rewrite <- (rev_involutive (l ++ [k])). apply NoDup_rev. rewrite rev_app_distr. cbn. constructor; [now rewrite <- in_rev|now apply NoDup_rev].
Qed.
Lemma entry_nodup mv k f m : NoDup (map fst m) -> NoDup (map fst (entry_update mv k f m)).
Proof.
  intros H. destruct mv.
  - rewrite entry_keys_true. apply nodup_snoc; [now apply kremove_nodup|]. rewrite kremove_in. tauto.
  - rewrite entry_keys_false. unfold smem, lmem. fold (@sget screen_logic). destruct (sget k m) eqn:E; auto. apply nodup_snoc; auto. now apply sget_none_notin.
Qed.
Lemma fold_nodup mv ss m : NoDup (map fst m) -> NoDup (map fst (fold_left (s_apply mv) ss m)).
Proof. revert m; induction ss as [|s ss IH]; intros m H; cbn [fold_left]; auto. apply IH. now apply entry_nodup. Qed.
Definition named (k : str) (ss : list sect) : list sect := filter (fun s => str_eqb k (s_name s)) ss.
Definition build (ss : list sect) (x : screen_logic) : screen_logic := fold_left (fun x s => s_fun s x) ss x.
Lemma fold_get mv ss m k : sget k (fold_left (s_apply mv) ss m) =
  match named k ss with [] => sget k m | fs => Some (build fs (or_empty k (sget k m))) end.
Proof.
  revert m; induction ss as [|s ss IH]; intros m; cbn [fold_left]; [reflexivity|]. rewrite IH. unfold named. cbn [filter].
  fold (named k ss). unfold s_apply. destruct (str_eqb_spec k (s_name s)) as [->|Hne].
  - rewrite entry_same. destruct (named (s_name s) ss); reflexivity.
  - rewrite entry_other by auto. reflexivity.
Qed.
(** two maps with the same lookups *)
Lemma smap_perm (a b : logic) : NoDup (map fst a) -> NoDup (map fst b) -> (forall k, sget k a = sget k b) -> Permutation a b.
Proof.
  intros Ha Hb H. apply NoDup_Permutation; try (eapply NoDup_map_inv; eassumption). intros [k v].
  split; intros Hi; apply sget_some_in; [rewrite <- H|rewrite H]; now apply sget_in.
Qed.
Lemma sget_perm k (a b : logic) : NoDup (map fst a) -> Permutation a b -> sget k a = sget k b.
Proof.
  intros Ha P. assert (Hb : NoDup (map fst b)) by (eapply Permutation_NoDup; [apply Permutation_map; exact P|exact Ha]).
  destruct (sget k a) as [v|] eqn:E.
  - symmetry. apply sget_in; auto. eapply Permutation_in; [exact P|]. now apply sget_some_in.
  - destruct (sget k b) as [v|] eqn:F; auto. apply sget_some_in in F. apply Permutation_sym in P. eapply Permutation_in in F; [|exact P].
    rewrite (sget_in k v) in E by auto. discriminate.
Qed.
Lemma smap_ext (a b : logic) : NoDup (map fst a) -> map fst a = map fst b -> (forall k, sget k a = sget k b) -> a = b.
Proof.
  revert b; induction a as [|[k v] a IH]; intros [|[k' v'] b] Hn E H; try discriminate; [reflexivity|].
  cbn [map fst] in *. injection E as <- E. inversion Hn as [|? ? Hk Hn']; subst. f_equal.
  - specialize (H k). cbn in H. rewrite str_eqb_refl in H. congruence.
  - apply IH; auto. intros x. destruct (str_eqb_spec x k) as [->|Hx].
    + rewrite !sget_notin; auto. now rewrite <- E.
    + specialize (H x). cbn in H. destruct (str_eqb_spec x k); [contradiction|exact H].
Qed.
(** ** the sections of one screen *)
Definition screen_sects (x : screen_logic) : list sect := (ss_var x ++ ss_list x ++ ss_comp x ++ ss_ev x ++ ss_mb x) ++ ss_blk x.
Lemma os_name {A} n (o : option A) (f : A -> sect) : (forall a, s_name (f a) = n) -> Forall (fun s => s_name s = n) (os o f).
Proof. intros H. destruct o; cbn; auto. Qed.
Lemma named_self k ss : Forall (fun s => s_name s = k) ss -> named k ss = ss.
Proof. induction 1 as [|s ss H _ IH]; [reflexivity|]. unfold named in *. cbn [filter]. now rewrite H, str_eqb_refl, IH. Qed.
Lemma named_other k k' ss : k <> k' -> Forall (fun s => s_name s = k') ss -> named k ss = [].
Proof.
  intros Hne. induction 1 as [|s ss H _ IH]; [reflexivity|]. unfold named in *. cbn [filter].
  rewrite H. destruct (str_eqb_spec k k'); [contradiction|exact IH].
Qed.
Lemma named_app k a b : named k (a ++ b) = named k a ++ named k b.
Proof. apply filter_app. Qed.
Lemma named_flat (h : screen_logic -> list sect) xs x : (forall y, Forall (fun s => s_name s = sl_name y) (h y)) ->
  NoDup (map sl_name xs) -> In x xs -> named (sl_name x) (flat_map h xs) = h x.
Proof.
  intros Hh Hn Hx. induction xs as [|y xs IH]; [destruct Hx|]. cbn [flat_map map] in *. rewrite named_app. inversion Hn as [|? ? Hy Hn']; subst.
  destruct Hx as [->|Hx].
  - rewrite named_self by auto.
    replace (named (sl_name x) (flat_map h xs)) with (@nil sect); [apply app_nil_r|]. symmetry. clear IH Hn Hn'. induction xs as [|z xs IH]; [reflexivity|].
    cbn [flat_map map In] in *. rewrite named_app, (named_other _ (sl_name z)) by auto. cbn [app]. tauto.
  - rewrite (named_other _ (sl_name y)), IH; auto. intros E. apply Hy. rewrite <- E. now apply in_map.
Qed.
Lemma ss_names x : Forall (fun s => s_name s = sl_name x) (screen_sects x).
Proof.
  unfold screen_sects. rewrite !Forall_app. repeat split; try (apply os_name; reflexivity).
  apply Forall_map, Forall_forall. reflexivity.
Qed.
Lemma named_all xs x : NoDup (map sl_name xs) -> In x xs -> named (sl_name x) (concat (groups xs)) = screen_sects x.
Proof.
  intros Hn Hx. unfold groups. rewrite concat_app, <- (flat_map_concat_map ss_blk).
  replace (concat (map (fun s => [s]) (pool_sects xs))) with (pool_sects xs)
    by (rewrite <- flat_map_concat_map; induction (pool_sects xs); cbn; congruence).
  pose proof ss_names as N. unfold screen_sects in *. unfold pool_sects. rewrite !named_app, !named_flat; auto; intros y; specialize (N y); rewrite !Forall_app in N; tauto.
Qed.
Lemma named_none xs k : ~ In k (map sl_name xs) -> named k (concat (groups xs)) = [].
Proof.
  intros Hk. destruct (named k (concat (groups xs))) as [|s ss] eqn:E; [reflexivity|]. exfalso.
  assert (In s (named k (concat (groups xs)))) as Hi by (rewrite E; now left).
  apply filter_In in Hi as [Hi He]. apply str_eqb_eq in He. subst k. apply Hk. clear E ss Hk.
  unfold groups in Hi. rewrite concat_app, in_app_iff in Hi.
  assert (P : forall h, (forall y, Forall (fun s => s_name s = sl_name y) (h y)) -> In s (flat_map h xs) -> In (s_name s) (map sl_name xs)).
  { intros h Hh Hs. apply in_flat_map in Hs as (y & Hy & Hs). specialize (Hh y). rewrite Forall_forall in Hh. rewrite (Hh s Hs). now apply in_map. }
  assert (N : forall y, Forall (fun s => s_name s = sl_name y) (screen_sects y)) by apply ss_names. unfold screen_sects in N.
  destruct Hi as [Hi|Hi].
  - apply in_concat in Hi as (g & Hg & Hs). apply in_map_iff in Hg as (s' & <- & Hp). destruct Hs as [<-|[]].
    unfold pool_sects in Hp. rewrite !in_app_iff in Hp.
    destruct Hp as [Hp|[Hp|[Hp|[Hp|Hp]]]]; (eapply P; [|exact Hp]); intros y; specialize (N y); rewrite !Forall_app in N; tauto.
  - rewrite <- flat_map_concat_map in Hi. eapply P; [|exact Hi]. intros y; specialize (N y); rewrite !Forall_app in N; tauto.
Qed.
Definition with_containers (x : screen_logic) (cs : smap block_container) : screen_logic :=
  {| sl_name := sl_name x; sl_block_containers := cs; sl_variables := sl_variables x;
     sl_list_variables := sl_list_variables x; sl_components := sl_components x; sl_events := sl_events x;
     sl_more_blocks := sl_more_blocks x |}.
Lemma build_app a b x : build (a ++ b) x = build b (build a x).
Proof. apply fold_left_app. Qed.
Lemma build_blk n cs x : build (map (fun kv => SBlk n (fst kv) (snd kv)) cs) x =
  with_containers x (fold_left (fun m kv => sinsert (fst kv) (snd kv) m) cs (sl_block_containers x)).
Proof.
  revert x; induction cs as [|kv cs IH]; intros x; cbn [map]; [now destruct x|]. unfold build in *. cbn [fold_left]. rewrite IH. reflexivity.
Qed.
Lemma build_screen x : NoDup (map fst (sl_block_containers x)) -> build (screen_sects x) (screen_new_empty (sl_name x)) = x.
Proof.
  intros H. unfold screen_sects. rewrite build_app. unfold ss_blk. rewrite build_blk.
  destruct x as [n cs [v|] [lv|] [c|] [e|] [m|]]; cbn in H; cbv [ss_var ss_list ss_comp ss_ev ss_mb os sl_name sl_variables sl_list_variables sl_components sl_events sl_more_blocks sl_block_containers app build fold_left s_fun set_variables set_list_variables set_components set_events set_more_blocks with_containers screen_new_empty]; f_equal;
  exact (fold_sinsert_nodup cs [] H).
Qed.
(** ** which groups are reached *)
Lemma reach_app_nil a b : reach (a ++ [] :: b) = reach a.
Proof. induction a as [|g a IH]; [reflexivity|]. cbn [app reach]. destruct g; [reflexivity|]. now rewrite IH. Qed.
Lemma reach_incl gs s : In s (reach gs) -> In s (concat gs).
Proof.
  induction gs as [|g gs IH]; [tauto|]. cbn [reach concat]. destruct g as [|x g]; [intros []|]. rewrite !in_app_iff. tauto.
Qed.
Lemma dropempty_incl gs s : In s (concat (dropempty gs)) <-> In s (concat gs).
Proof. induction gs as [|[|x g] gs IH]; cbn [dropempty concat]; [tauto|exact IH|tauto]. Qed.
Lemma reach_nonempty gs : Forall (fun g => g <> []) gs -> reach gs = concat gs.
Proof. induction 1 as [|g gs H _ IH]; [reflexivity|]. cbn [reach concat]. destruct g; [congruence|]. now rewrite IH. Qed.
Lemma reach_full p e : Forall (fun g => g <> []) p -> Forall (fun g => g = []) e -> reach (dropempty (p ++ e)) = concat (p ++ e).
Proof.
  intros Hp He. assert (Z : concat e = [] /\ dropempty e = [] /\ reach e = []).
  { induction He as [|g e -> _ IH]; [auto|]. cbn [concat dropempty reach app]. tauto. }
  destruct Z as (Z1 & Z2 & Z3). rewrite concat_app, Z1, app_nil_r.
  destruct p as [|g p]; cbn [app concat]; [now rewrite Z2|]. inversion Hp as [|? ? Hg Hp']; subst.
  replace (dropempty ((g :: p) ++ e)) with ((g :: p) ++ e) by (destruct g; [congruence|reflexivity]).
  assert (R : forall q, Forall (fun g => g <> []) q -> reach (q ++ e) = concat q).
  { induction 1 as [|h q Hh _ IH]; [exact Z3|]. cbn [app reach concat]. destruct h; [congruence|]. now rewrite IH. }
  change (dropempty (g :: p ++ e)) with (dropempty ((g :: p) ++ e)). destruct g; [congruence|]. cbn [dropempty]. now apply (R ((s :: g) :: p)).
Qed.
Definition has_blk (x : screen_logic) : Prop := sl_block_containers x <> [].
Lemma ss_blk_nil x : ss_blk x = [] <-> sl_block_containers x = [].
Proof. unfold ss_blk. destruct (sl_block_containers x); cbn; split; congruence. Qed.
(** screens with containers come before those without *)
Definition blk_first (xs : list screen_logic) : Prop := exists a b, xs = a ++ b /\ Forall has_blk a /\ Forall (fun x => sl_block_containers x = []) b.
Lemma groups_full xs : blk_first xs -> reach (dropempty (groups xs)) = concat (groups xs).
Proof.
  intros (a & b & -> & Ha & Hb). unfold groups. rewrite map_app, app_assoc. apply reach_full.
  - apply Forall_app. split; [apply Forall_map, Forall_forall; discriminate|]. apply Forall_map. eapply Forall_impl; [|exact Ha].
    intros x Hx E. apply Hx. now apply ss_blk_nil.
  - apply Forall_map. eapply Forall_impl; [|exact Hb]. intros x Hx. now apply ss_blk_nil.
Qed.
Lemma logic_names l : logic_ok l -> map sl_name (map snd l) = map fst l /\ NoDup (map sl_name (map snd l)) /\ Forall screen_ok (map snd l).
Proof.
  intros [Hn H]. assert (E : map sl_name (map snd l) = map fst l).
  { rewrite map_map. apply map_ext_in. intros kv Hk. rewrite Forall_forall in H. symmetry. apply H. auto. }
  split; [exact E|]. split; [now rewrite E|]. apply Forall_map. eapply Forall_impl; [|exact H]. cbn. tauto.
Qed.
Lemma logic_get_in l k x : logic_ok l -> sget k l = Some x <-> In x (map snd l) /\ sl_name x = k.
Proof.
  intros [Hn H]. rewrite Forall_forall in H. split.
  - intros E. apply sget_some_in in E. pose proof (H _ E) as (Hk & _). cbn in Hk. split; [|now symmetry]. change x with (snd (k, x)). now apply in_map.
  - intros [Hi <-]. apply in_map_iff in Hi as ([k' y] & Ey & Hi). cbn in Ey. subst y. pose proof (H _ Hi) as (Hk & _). cbn in Hk. subst k'. now apply sget_in.
Qed.
Definition read_back (mv : bool) (l : logic) : logic := fold_left (s_apply mv) (reach (dropempty (groups (map snd l)))) [].
Lemma read_back_get mv l : logic_ok l -> blk_first (map snd l) -> Forall (fun x => screen_sects x <> []) (map snd l) ->
  forall k, sget k (read_back mv l) = sget k l.
Proof.
  intros H B S k. destruct (logic_names l H) as (E & N & F). unfold read_back. rewrite groups_full by auto. rewrite fold_get. cbn [sget lget].
  destruct (sget k l) as [x|] eqn:G.
  - apply logic_get_in in G as [Hi <-]; auto. rewrite named_all by auto. rewrite Forall_forall in S. specialize (S x Hi).
    destruct (screen_sects x) eqn:Es; [congruence|]. rewrite <- Es. f_equal.
    change (or_empty (sl_name x) (sget (sl_name x) [])) with (screen_new_empty (sl_name x)).
    apply build_screen. destruct H as [_ H]. rewrite Forall_forall in H. apply in_map_iff in Hi as (kv & <- & Hi). now apply H.
  - rewrite named_none; [reflexivity|]. rewrite E. now apply sget_none_notin.
Qed.
Lemma logic_same mv l : logic_ok l -> blk_first (map snd l) -> Forall (fun x => screen_sects x <> []) (map snd l) ->
  exists r, logic_parse mv (logic_reconstruct l) = Ok r /\ Permutation r l.
Proof.
  intros H B S. destruct (logic_names l H) as (E & N & F). exists (read_back mv l). split; [now apply logic_reparse|].
  apply smap_perm; [apply fold_nodup; constructor|apply H|now apply read_back_get].
Qed.
(** *** order *)
Lemma keys_group k ss m : ss <> [] -> Forall (fun s => s_name s = k) ss ->
  map fst (fold_left (s_apply true) ss m) = kremove k (map fst m) ++ [k].
Proof.
  intros Hn H. revert m. induction H as [|s ss Hs Hss IH]; [congruence|]. intros m. cbn [fold_left]. unfold s_apply at 2. rewrite Hs.
  destruct ss as [|s2 ss]; [apply entry_keys_true|]. rewrite IH by discriminate. rewrite entry_keys_true, kremove_app, kremove_idem.
  cbn [kremove]. rewrite str_eqb_refl. now rewrite app_nil_r.
Qed.
Lemma keys_all xs m : Forall has_blk xs -> NoDup (map sl_name xs) ->
  exists rest, map fst (fold_left (s_apply true) (flat_map ss_blk xs) m) = rest ++ map sl_name xs /\
    (forall k, In k rest <-> In k (map fst m) /\ ~ In k (map sl_name xs)).
Proof.
  revert m; induction xs as [|x xs IH] using rev_ind; intros m H N.
  - exists (map fst m). cbn. rewrite app_nil_r. split; auto. tauto.
  - apply Forall_app in H as [H1 H2]. inversion H2 as [|? ? Hx _]; subst. rewrite map_app in N. cbn [map] in N.
    assert (N1 : NoDup (map sl_name xs)) by (apply NoDup_remove_1 in N; now rewrite app_nil_r in N).
    assert (N2 : ~ In (sl_name x) (map sl_name xs)) by (apply NoDup_remove_2 in N; now rewrite app_nil_r in N).
    destruct (IH m H1 N1) as (rest & E & R). rewrite flat_map_app, fold_left_app. cbn [flat_map]. rewrite app_nil_r.
    rewrite (keys_group (sl_name x)); [|intros Z; apply Hx; now apply ss_blk_nil|].
    + rewrite E, kremove_app, (kremove_notin _ (map sl_name xs)) by auto. exists (kremove (sl_name x) rest). rewrite map_app. cbn [map].
      split; [now rewrite app_assoc|]. intros k. rewrite kremove_in, R, in_app_iff. cbn [In]. firstorder.
    + pose proof (ss_names x) as F. unfold screen_sects in F. rewrite Forall_app in F. apply F.
Qed.
Lemma fold_keys_in mv ss m k : In k (map fst (fold_left (s_apply mv) ss m)) <-> In k (map fst m) \/ In k (map s_name ss).
Proof.
  assert (G : forall m : logic, In k (map fst m) <-> sget k m <> None).
  { intros m'. split.
    - intros Hi Hg. now apply sget_none_notin in Hg.
    - intros Hg. destruct (sget k m') eqn:E; [|congruence]. apply sget_some_in in E. change k with (fst (k, s)). now apply in_map. }
  rewrite !G, fold_get. assert (Z : named k ss = [] <-> ~ In k (map s_name ss)).
  { split.
    - intros E Hi. apply in_map_iff in Hi as (s & <- & Hi). assert (In s (named (s_name s) ss)) by (apply filter_In; split; auto; apply str_eqb_refl).
      rewrite E in H. destruct H.
    - intros Hn. destruct (named k ss) as [|s r] eqn:E; auto. exfalso. apply Hn. assert (In s (named k ss)) as Hi by (rewrite E; now left).
      apply filter_In in Hi as [Hi He]. apply str_eqb_eq in He. subst k. now apply in_map. }
  assert (D : In k (map s_name ss) \/ ~ In k (map s_name ss)) by (destruct (in_dec (list_eq_dec N.eq_dec) k (map s_name ss)); auto).
  destruct (named k ss) as [|s r] eqn:E; [tauto|]. split; [|congruence]. intros _. right. destruct D as [D|D]; auto. apply Z in D. discriminate.
Qed.
Lemma logic_order_true l : logic_ok l -> Forall has_blk (map snd l) -> logic_parse true (logic_reconstruct l) = Ok l.
Proof.
  intros H B. destruct (logic_names l H) as (E & N & F).
  assert (BF : blk_first (map snd l)) by (exists (map snd l), []; rewrite app_nil_r; auto).
  assert (S : Forall (fun x => screen_sects x <> []) (map snd l)).
  { eapply Forall_impl; [|exact B]. intros x Hx Z. unfold screen_sects in Z. apply app_eq_nil in Z as [_ Z]. apply Hx. now apply ss_blk_nil. }
  rewrite logic_reparse by auto. f_equal. change (read_back true l = l). apply smap_ext.
  - apply fold_nodup. constructor.
  - unfold read_back. rewrite groups_full by auto. unfold groups. rewrite concat_app, fold_left_app, <- flat_map_concat_map.
    destruct (keys_all (map snd l) (fold_left (s_apply true) (concat (map (fun s => [s]) (pool_sects (map snd l)))) []) B N) as (rest & EK & R).
    rewrite EK, E. replace rest with (@nil str); [reflexivity|]. symmetry. destruct rest as [|k rest]; auto. exfalso.
    destruct (R k) as [R1 _]. destruct (R1 (or_introl eq_refl)) as [K1 K2]. apply fold_keys_in in K1 as [[]|K1].
    apply K2. apply in_map_iff in K1 as (s & <- & Hs).
    destruct (in_dec (list_eq_dec N.eq_dec) (s_name s) (map sl_name (map snd l))) as [Y|Y]; auto. exfalso.
    pose proof (named_none (map snd l) (s_name s) Y) as Z. assert (In s (named (s_name s) (concat (groups (map snd l))))) as Hi.
    { apply filter_In. split; [|apply str_eqb_refl]. unfold groups. rewrite concat_app, in_app_iff. now left. }
    rewrite Z in Hi. destruct Hi.
  - now apply read_back_get.
Qed.
Lemma keys_false_sub ss m : (forall s, In s ss -> In (s_name s) (map fst m)) -> map fst (fold_left (s_apply false) ss m) = map fst m.
Proof.
  revert m; induction ss as [|s ss IH]; intros m H; cbn [fold_left]; [reflexivity|].
  assert (E : map fst (s_apply false m s) = map fst m).
  { unfold s_apply. rewrite entry_keys_false. unfold smem, lmem. fold (@sget screen_logic). destruct (sget (s_name s) m) eqn:E; auto.
    apply sget_none_notin in E. exfalso. apply E. apply H. now left. }
  rewrite IH; [exact E|]. intros s' Hs. rewrite E. apply H. now right.
Qed.
Lemma logic_order_false l : logic_ok l -> Forall has_blk (map snd l) -> Forall (fun x => sl_variables x <> None) (map snd l) ->
  logic_parse false (logic_reconstruct l) = Ok l.
Proof.
  intros H B V. destruct (logic_names l H) as (E & N & F).
  assert (BF : blk_first (map snd l)) by (exists (map snd l), []; rewrite app_nil_r; auto).
  assert (S : Forall (fun x => screen_sects x <> []) (map snd l)).
  { eapply Forall_impl; [|exact B]. intros x Hx Z. unfold screen_sects in Z. apply app_eq_nil in Z as [_ Z]. apply Hx. now apply ss_blk_nil. }
  rewrite logic_reparse by auto. f_equal. change (read_back false l = l). apply smap_ext.
  - apply fold_nodup. constructor.
  - unfold read_back. rewrite groups_full by auto.
    assert (K : map fst (fold_left (s_apply false) (flat_map ss_var (map snd l)) []) = map sl_name (map snd l)).
    { clear -V N. assert (A : forall xs m, Forall (fun x => sl_variables x <> None) xs -> NoDup (map fst m ++ map sl_name xs) ->
        map fst (fold_left (s_apply false) (flat_map ss_var xs) m) = map fst m ++ map sl_name xs).
      { induction xs as [|x xs IH]; intros m Hv Hn; cbn [flat_map map fold_left]; [now rewrite app_nil_r|].
        inversion Hv as [|? ? Hx Hv']; subst. unfold ss_var at 1. destruct (sl_variables x) as [p|]; [|congruence]. cbn [os app fold_left].
        assert (EK : map fst (s_apply false m (SVar (sl_name x) p)) = map fst m ++ [sl_name x]).
        { unfold s_apply. rewrite entry_keys_false. unfold smem, lmem. fold (@sget screen_logic). cbn [s_name]. destruct (sget (sl_name x) m) eqn:G; auto.
          exfalso. cbn [map] in Hn. apply NoDup_remove_2 in Hn. apply Hn. apply in_or_app. left. apply sget_some_in in G.
          change (sl_name x) with (fst (sl_name x, s)). now apply in_map. }
        rewrite IH; auto; rewrite EK, <- app_assoc; auto. }
      apply (A (map snd l) []); auto. }
    unfold groups. rewrite concat_app, fold_left_app.
    replace (concat (map (fun s => [s]) (pool_sects (map snd l)))) with (pool_sects (map snd l))
      by (rewrite <- flat_map_concat_map; induction (pool_sects (map snd l)); cbn; congruence).
    unfold pool_sects. rewrite fold_left_app.
    assert (SUB : forall h : screen_logic -> list sect, (forall y, Forall (fun s => s_name s = sl_name y) (h y)) ->
      forall s, In s (flat_map h (map snd l)) -> In (s_name s) (map sl_name (map snd l))).
    { intros h Hh s Hs. apply in_flat_map in Hs as (y & Hy & Hs). specialize (Hh y). rewrite Forall_forall in Hh. rewrite (Hh s Hs). now apply in_map. }
    rewrite <- fold_left_app. rewrite keys_false_sub; [now rewrite K|]. intros s Hs. rewrite K.
    pose proof ss_names as SN. unfold screen_sects in SN.
    rewrite <- flat_map_concat_map, !in_app_iff in Hs.
    destruct Hs as [[Hs|[Hs|[Hs|Hs]]]|Hs]; (eapply SUB; [|exact Hs]); intros y; specialize (SN y); rewrite !Forall_app in SN; tauto.
  - now apply read_back_get.
Qed.
(** *** the conditions are necessary *)
Lemma blk_first_dec xs : blk_first xs \/ exists pre y mid z post, xs = pre ++ y :: mid ++ z :: post /\ sl_block_containers y = [] /\ has_blk z.
Proof.
  induction xs as [|x xs IH]; [left; exists [], []; auto|].
  destruct IH as [(a & b & -> & Ha & Hb)|(pre & y & mid & z & post & -> & Hy & Hz)].
  - destruct (sl_block_containers x) eqn:E.
    + destruct a as [|z a].
      * left. exists [], (x :: b). repeat split; auto.
      * right. inversion Ha; subst. exists [], x, [], z, (a ++ b). auto.
    + left. exists (x :: a), b. repeat split; auto. constructor; auto. unfold has_blk. congruence.
  - right. exists (x :: pre), y, mid, z, post. auto.
Qed.
Lemma build_noblk ss x : (forall n c b, ~ In (SBlk n c b) ss) -> sl_block_containers (build ss x) = sl_block_containers x.
Proof.
  revert x; induction ss as [|s ss IH]; intros x H; [reflexivity|]. unfold build in *. cbn [fold_left]. rewrite IH.
  - destruct s; try reflexivity. exfalso. eapply H. now left.
  - intros n c b Hi. eapply H. right. exact Hi.
Qed.
Lemma pool_noblk xs n c b : ~ In (SBlk n c b) (pool_sects xs).
Proof.
  unfold pool_sects, ss_var, ss_list, ss_comp, ss_ev, ss_mb, os. rewrite !in_app_iff, !in_flat_map.
  intros [(x & _ & H)|[(x & _ & H)|[(x & _ & H)|[(x & _ & H)|(x & _ & H)]]]];
  match type of H with In _ (match ?o with _ => _ end) => destruct o end; cbn in H; firstorder discriminate.
Qed.
Lemma concat_single {A} (l : list A) : concat (map (fun s => [s]) l) = l.
Proof. rewrite <- flat_map_concat_map. induction l; cbn; congruence. Qed.
Lemma logic_gap mv l pre y mid z post : logic_ok l -> map snd l = pre ++ y :: mid ++ z :: post -> sl_block_containers y = [] ->
  pool_sects (map snd l) <> [] \/ Exists has_blk pre ->
  match sget (sl_name z) (read_back mv l) with Some x => sl_block_containers x = [] | None => True end.
Proof.
  intros H E Hy D. destruct (logic_names l H) as (_ & N & _). unfold read_back. rewrite fold_get. cbn [sget lget].
  destruct (named (sl_name z) (reach (dropempty (groups (map snd l))))) as [|s0 ss0] eqn:En; [exact I|].
  rewrite build_noblk; [reflexivity|]. intros n c b Hi. rewrite <- En in Hi. apply filter_In in Hi as [Hi He]. cbn [s_name] in He. apply str_eqb_eq in He. subst n.
  clear En s0 ss0. set (P := map (fun s => [s]) (pool_sects (map snd l))).
  assert (G : groups (map snd l) = (P ++ map ss_blk pre) ++ [] :: map ss_blk (mid ++ z :: post)).
  { unfold groups, P. rewrite E at 2. rewrite map_app. cbn [map]. rewrite (proj2 (ss_blk_nil y) Hy), <- app_assoc. reflexivity. }
  assert (R : forall a b, (exists g, In g a /\ g <> []) -> reach (dropempty (a ++ [] :: b)) = reach (dropempty a)).
  { clear. induction a as [|g a IH]; intros b (h & Hh & Hn); [destruct Hh|]. destruct g as [|s g].
    - cbn [app dropempty]. apply IH. destruct Hh as [<-|Hh]; [congruence|]. eauto.
    - cbn [app dropempty]. change ((s :: g) :: a ++ [] :: b) with (((s :: g) :: a) ++ [] :: b). apply reach_app_nil. }
  rewrite G, R in Hi.
  - apply reach_incl, (proj1 (dropempty_incl _ _)) in Hi. rewrite concat_app, in_app_iff in Hi. destruct Hi as [Hi|Hi].
    + unfold P in Hi. rewrite concat_single in Hi. now apply pool_noblk in Hi.
    + rewrite <- flat_map_concat_map in Hi. apply in_flat_map in Hi as (x & Hx & Hi). apply in_map_iff in Hi as (kv & Ekv & _). injection Ekv as En _ _.
      rewrite E in N. clear -N Hx En. induction pre as [|p pre IH]; [destruct Hx|]. cbn [app map] in N. inversion N as [|? ? Np N']; subst.
      destruct Hx as [->|Hx]; [|auto]. apply Np. rewrite En, map_app. apply in_or_app. right. cbn [map]. right. rewrite map_app. apply in_or_app. right. now left.
  - destruct D as [D|D].
    + destruct (pool_sects (map snd l)) as [|s ps] eqn:Ep; [congruence|]. exists [s]. split; [|discriminate]. apply in_or_app. left. unfold P. now left.
    + apply Exists_exists in D as (x & Hx & Hb). exists (ss_blk x). split; [apply in_or_app; right; now apply in_map|]. intros Z. apply Hb. now apply ss_blk_nil.
Qed.
Lemma read_back_needs mv l : logic_ok l -> Permutation (read_back mv l) l ->
  Forall (fun x => screen_sects x <> []) (map snd l) /\ blk_first (map snd l).
Proof.
  intros H Pm. destruct (logic_names l H) as (E & N & F).
  assert (G : forall x, In x (map snd l) -> sget (sl_name x) (read_back mv l) = Some x).
  { intros x Hx. rewrite (sget_perm _ _ l); [now apply logic_get_in|apply fold_nodup; constructor|exact Pm]. }
  assert (S : Forall (fun x => screen_sects x <> []) (map snd l)).
  { apply Forall_forall. intros x Hx Z. specialize (G x Hx). unfold read_back in G. rewrite fold_get in G. cbn [sget lget] in G.
    destruct (named (sl_name x) (reach (dropempty (groups (map snd l))))) as [|s ss] eqn:En; [discriminate|].
    assert (Hi : In s (named (sl_name x) (reach (dropempty (groups (map snd l)))))) by (rewrite En; now left).
    apply filter_In in Hi as [Hi He]. apply reach_incl, (proj1 (dropempty_incl _ _)) in Hi.
    assert (Hs : In s (named (sl_name x) (concat (groups (map snd l))))) by (apply filter_In; auto).
    rewrite named_all, Z in Hs by auto. destruct Hs. }
  split; [exact S|]. destruct (blk_first_dec (map snd l)) as [B|(pre & y & mid & z & post & El & Hy & Hz)]; auto. exfalso.
  assert (Iy : In y (map snd l)) by (rewrite El; apply in_or_app; right; now left).
  assert (Iz : In z (map snd l)) by (rewrite El; apply in_or_app; right; right; apply in_or_app; right; now left).
  assert (Pp : pool_sects (map snd l) <> []).
  { rewrite Forall_forall in S. specialize (S y Iy). unfold screen_sects in S. rewrite (proj2 (ss_blk_nil y) Hy), app_nil_r in S.
    intros Z. apply S. unfold pool_sects in Z. apply app_eq_nil in Z as [Z1 Z]. apply app_eq_nil in Z as [Z2 Z]. apply app_eq_nil in Z as [Z3 Z].
    apply app_eq_nil in Z as [Z4 Z5].
    assert (K : forall h : screen_logic -> list sect, flat_map h (map snd l) = [] -> h y = []).
    { intros h Hh. destruct (h y) as [|s r] eqn:Ey; auto. exfalso. assert (In s (flat_map h (map snd l))) as Hi by (apply in_flat_map; exists y; rewrite Ey; split; auto; now left).
      rewrite Hh in Hi. destruct Hi. }
    rewrite (K _ Z1), (K _ Z2), (K _ Z3), (K _ Z4), (K _ Z5). reflexivity. }
  pose proof (logic_gap mv l pre y mid z post H El Hy (or_introl Pp)) as X. rewrite (G z Iz) in X. contradiction.
Qed.
(** ** the parser of arbitrary text *)
Lemma bind_panic {E A B} (r : res E A) (f : A -> res E B) : bind r f = Panic -> r = Panic \/ exists a, r = Ok a /\ f a = Panic.
Proof. destruct r; cbn; [right; eauto|discriminate|auto]. Qed.
Lemma container_header_nopanic s : container_header_parse s <> Panic.
Proof.
  unfold container_header_parse. destruct (starts_with (lit "@") s) eqn:E; [|discriminate]. apply starts_with_spec in E as [r ->].
  destruct (split_once (lit ".java_") (lit "@" ++ r)) as [[a b]|] eqn:S.
  - apply split_once_spec in S. destruct a as [|c a]; [discriminate|]. injection S as <- _.
    change (64 :: a) with ([64] ++ a). change 1%nat with (blen [64]). rewrite bdrop_app. discriminate.
  - change 1%nat with (blen (lit "@")). rewrite bdrop_app. discriminate.
Qed.
(** the only way to panic: a pool header whose name cannot be cut out *)
Lemma logic_loop_panic mv fuel lines n m : (length lines <= fuel)%nat -> logic_loop mv fuel lines n m = Panic ->
  exists line k suf, In line lines /\ In (suf, k) [(lit "java_var", 9); (lit "java_list", 10); (lit "java_components", 16); (lit "java_events", 12); (lit "java_func", 10)]%nat /\
    starts_with (lit "@") line = true /\ ends_with suf line = true /\ header_name k line = Panic.
Proof.
  revert lines n m. induction fuel as [|fuel IH]; intros lines n m H.
  - destruct lines; [discriminate|cbn in H; lia].
  - destruct lines as [|line rest]; [discriminate|]. cbn [length logic_loop] in *.
    destruct (starts_with (lit "@") line) eqn:Es; cbn [negb]; [|discriminate].
    assert (R : forall rest' n' m', (length rest' <= length rest)%nat -> (forall x, In x rest' -> In x rest) -> logic_loop mv fuel rest' n' m' = Panic ->
      exists line0 k suf, In line0 (line :: rest) /\ In (suf, k) [(lit "java_var", 9); (lit "java_list", 10); (lit "java_components", 16); (lit "java_events", 12); (lit "java_func", 10)]%nat /\
        starts_with (lit "@") line0 = true /\ ends_with suf line0 = true /\ header_name k line0 = Panic).
    { intros rest' n' m' Hl Hi HP. destruct (IH rest' n' m' ltac:(lia) HP) as (l0 & k & suf & A & B). exists l0, k, suf. split; auto. right. auto. }
    assert (PL : forall (E A M : Type) (p : str -> res E A) (ins : A -> M -> M) acc r rest', pool_loop p ins rest 0 acc = Ok (r, rest') ->
      (length rest' <= length rest)%nat /\ (forall x, In x rest' -> In x rest)).
    { intros E A M p ins acc r rest' HP. split; [now apply pool_loop_rest in HP|]. apply pool_loop_inv in HP as (used & tail & xs & -> & T & _).
      intros x Hx. apply in_or_app. right. destruct T as [[-> ->]| ->]; [auto|now right]. }
    destruct (ends_with (lit "java_var") line) eqn:E1; [|destruct (ends_with (lit "java_list") line) eqn:E2;
      [|destruct (ends_with (lit "java_components") line) eqn:E3; [|destruct (ends_with (lit "java_events") line) eqn:E4;
      [|destruct (ends_with (lit "java_func") line) eqn:E5]]]]; intros HP; apply bind_panic in HP as [HP|(h & _ & HP)].
    + exists line, 9%nat, (lit "java_var"). repeat split; auto; cbn; auto.
    + apply bind_panic in HP as [HP|([p r] & Ep & HP)].
      * exfalso. revert HP. apply map_err_nopanic, pool_loop_nopanic, variable_nopanic.
      * apply map_err_ok in Ep. apply PL in Ep as [L1 L2]. eapply R; eauto.
    + exists line, 10%nat, (lit "java_list"). repeat split; auto; cbn; auto.
    + apply bind_panic in HP as [HP|([p r] & Ep & HP)].
      * exfalso. revert HP. apply map_err_nopanic, pool_loop_nopanic, list_variable_nopanic.
      * apply map_err_ok in Ep. apply PL in Ep as [L1 L2]. eapply R; eauto.
    + exists line, 16%nat, (lit "java_components"). repeat split; auto; cbn; auto.
    + apply bind_panic in HP as [HP|([p r] & Ep & HP)].
      * exfalso. revert HP. apply map_err_nopanic, pool_loop_nopanic. intros s. apply ok_or_nopanic.
      * apply map_err_ok in Ep. apply PL in Ep as [L1 L2]. eapply R; eauto.
    + exists line, 12%nat, (lit "java_events"). repeat split; auto; cbn; auto 6.
    + apply bind_panic in HP as [HP|([p r] & Ep & HP)].
      * exfalso. revert HP. apply map_err_nopanic, pool_loop_nopanic. intros s. apply ok_or_nopanic.
      * apply map_err_ok in Ep. apply PL in Ep as [L1 L2]. eapply R; eauto.
    + exists line, 10%nat, (lit "java_func"). repeat split; auto; cbn; auto 7.
    + apply bind_panic in HP as [HP|([p r] & Ep & HP)].
      * exfalso. revert HP. apply map_err_nopanic, more_block_pool_iter_nopanic.
      * apply map_err_ok in Ep. unfold more_block_pool_parse_iter in Ep. destruct (pool_loop more_block_parse vpush rest 0 []) as [[v r']| |] eqn:Ev; try discriminate.
        cbn [bind] in Ep. assert (r' = r) by congruence. subst r'. apply PL in Ev as [L1 L2]. eapply R; eauto.
    + exfalso. revert HP. apply map_err_nopanic, container_header_nopanic.
    + apply bind_panic in HP as [HP|([p r] & Ep & HP)].
      * exfalso. revert HP. apply map_err_nopanic, map_err_nopanic, pool_loop_nopanic. intros s. apply ok_or_nopanic.
      * apply map_err_ok, map_err_ok in Ep. apply PL in Ep as [L1 L2]. eapply R; eauto.
Qed.
Lemma u8len_ascii c : u8len c = 1%nat <-> c < 128.
Proof. unfold u8len. destruct (N.ltb_spec c 128); [tauto|]. split; [|lia]. repeat match goal with |- context [if ?b then _ else _] => destruct b end; discriminate. Qed.
(** what the cut keeps of a pool header: everything between the '@' and the one-byte character before the suffix *)
Lemma header_name_ok_iff mid suf n : header_name (S (blen suf)) (64 :: mid ++ suf) = Ok n <-> exists c, mid = n ++ [c] /\ c < 128.
Proof.
  unfold header_name. assert (L : blen (64 :: mid ++ suf) = (1 + blen mid + blen suf)%nat) by (cbn [blen]; rewrite blen_app; reflexivity).
  rewrite L. replace (1 + blen mid + blen suf - S (blen suf))%nat with (blen mid) by lia.
  replace (S (blen suf) <=? 1 + blen mid + blen suf)%nat with true by (symmetry; apply Nat.leb_le; lia).
  change (64 :: mid ++ suf) with ([64] ++ (mid ++ suf)). unfold bslice. destruct (Nat.leb_spec 1 (blen mid)) as [H1|H1].
  - change (bdrop 1 ([64] ++ mid ++ suf)) with (bdrop (blen [64]) ([64] ++ mid ++ suf)). rewrite bdrop_app. cbn [obind]. split.
    + intros E. destruct (btake (blen mid - 1) (mid ++ suf)) as [p|] eqn:B; [|discriminate]. injection E as ->.
      apply btake_spec in B as (r & Er & Bp). apply app_eq_app in Er as (l & [[-> ->]|[-> ->]]).
      * rewrite blen_app in *. destruct l as [|c l]; [cbn [blen] in *; lia|]. cbn [blen] in *. pose proof (u8len_pos c).
        destruct l as [|d l]; [|cbn [blen] in *; pose proof (u8len_pos d); lia]. exists c. split; auto. apply u8len_ascii. cbn [blen] in *. lia.
      * rewrite blen_app in Bp. exfalso. lia.
    + intros (c & -> & Hc). apply u8len_ascii in Hc. rewrite blen_app in *. cbn [blen] in *. rewrite Hc.
      replace (blen n + (1 + 0) - 1)%nat with (blen n) by lia. rewrite <- app_assoc, btake_app. reflexivity.
  - split; [discriminate|]. intros (c & -> & Hc). exfalso. rewrite blen_app in H1. cbn [blen] in H1. pose proof (u8len_pos c). lia.
Qed.
Lemma header_name_no_err k line e : header_name k line <> Err e.
Proof. unfold header_name. destruct (k <=? blen line)%nat; [|discriminate]. destruct (bslice 1 (blen line - k) line); discriminate. Qed.
(** every header that ends like a pool header has an ASCII character before that suffix *)
Definition pool_header_cuttable (line : str) : Prop :=
  forall mid suf, In suf reserved -> line = lit "@" ++ mid ++ suf -> exists n c, mid = n ++ [c] /\ c < 128.
Lemma logic_parse_nopanic mv s : Forall pool_header_cuttable (split_on NL s) -> logic_parse mv s <> Panic.
Proof.
  intros H HP. unfold logic_parse in HP. apply logic_loop_panic in HP as (line & k & suf & Hi & Hk & Hs & He & Hn); [|reflexivity].
  rewrite Forall_forall in H. specialize (H line Hi). apply ends_with_spec in He as [a Ea]. apply starts_with_spec in Hs as [b Eb].
  assert (K : k = S (blen suf) /\ In suf reserved /\ hd 0 suf <> 64).
  { cbn [In] in Hk. unfold reserved. destruct Hk as [E|[E|[E|[E|[E|[]]]]]]; injection E as <- <-; (split; [reflexivity|split; [cbn; auto 7|discriminate]]). }
  destruct K as (-> & R & Hd). destruct a as [|x mid].
  - cbn [app] in Ea. rewrite Ea in Eb. destruct suf; [discriminate|]. cbn in Eb, Hd. congruence.
  - assert (x = 64) by (rewrite Ea in Eb; cbn in Eb; congruence). subst x. destruct (H mid suf R Ea) as (n & c & Em & Hc).
    assert (header_name (S (blen suf)) line = Ok n) by (rewrite Ea; apply header_name_ok_iff; eauto). congruence.
Qed.
(** and a first line that does not have one panics *)
Lemma logic_parse_panic mv mid suf rest : In suf reserved -> ~ In NL mid -> ~ (exists n c, mid = n ++ [c] /\ c < 128) ->
  rest = [] \/ (exists t, rest = NL :: t) -> logic_parse mv (lit "@" ++ mid ++ suf ++ rest) = Panic.
Proof.
  intros R Hm H T.
  assert (P : forall sfx, header_name (S (blen sfx)) (64 :: mid ++ sfx) = Panic).
  { intros sfx. pose proof (header_name_no_err (S (blen sfx)) (64 :: mid ++ sfx)) as NE. destruct (header_name (S (blen sfx)) (64 :: mid ++ sfx)) as [n|e|] eqn:E; auto.
    - apply header_name_ok_iff in E as (c & -> & Hc). exfalso. eauto.
    - now destruct (NE e). }
  assert (S : exists tail, split_on NL (lit "@" ++ mid ++ suf ++ rest) = (64 :: mid ++ suf) :: tail).
  { assert (N1 : ~ In NL (64 :: mid ++ suf)).
    { intros [E|Hi]; [discriminate|]. apply in_app_iff in Hi as [Hi|Hi]; auto. unfold reserved in R. cbn [In] in R.
      destruct R as [<-|[<-|[<-|[<-|[<-|[]]]]]]; revert Hi; clear; cbn; unfold NL; intuition discriminate. }
    destruct T as [->|[t ->]].
    - rewrite app_nil_r. exists []. apply split_on_noc; auto.
    - exists (split_on NL t). change (lit "@" ++ mid ++ suf ++ NL :: t) with ([64] ++ mid ++ suf ++ NL :: t). rewrite !app_assoc.
      rewrite <- (app_assoc [64] mid suf). apply (split_on_app NL (64 :: mid ++ suf)). auto. }
  destruct S as [tail S]. unfold logic_parse. rewrite S. cbn [length logic_loop].
  replace (starts_with (lit "@") (64 :: mid ++ suf)) with true by (symmetry; apply starts_with_spec; exists (mid ++ suf); reflexivity). cbn [negb].
  assert (EW : forall a b, (exists x, b = x ++ a) -> ends_with a (64 :: mid ++ b) = true).
  { intros a b [x ->]. apply ends_with_spec. exists (64 :: mid ++ x). cbn. now rewrite <- app_assoc. }
  assert (NW : forall a b l, length a <> length b \/ a <> b -> (forall x, b <> x ++ a) -> (forall x, x <> [] -> a <> x ++ b) -> ends_with a (l ++ b) = false).
  { intros a b l _ N1 N2. destruct (ends_with a (l ++ b)) eqn:E; auto. exfalso. apply ends_with_spec in E as [r E].
    apply app_eq_app in E as (q & [[-> ->]|[-> ->]]); [destruct q; [now apply (N1 [])|eapply N2; [|reflexivity]; discriminate]|eapply N1; reflexivity]. }
  unfold reserved in R. cbn [In] in R.
  assert (V1 : forall suf, In suf [lit "java_var"; lit "java_list"; lit "java_components"; lit "java_events"; lit "java_func"] -> forall s2, In s2 [lit "java_var"; lit "java_list"; lit "java_components"; lit "java_events"; lit "java_func"] ->
     suf <> s2 -> ends_with suf (64 :: mid ++ s2) = false).
  { intros a Ha b Hb Hab. apply (NW a b (64 :: mid)); [auto| |].
    - intros x E. cbn [In] in Ha, Hb. 
      destruct Ha as [<-|[<-|[<-|[<-|[<-|[]]]]]]; destruct Hb as [<-|[<-|[<-|[<-|[<-|[]]]]]]; try congruence;
      apply (f_equal (fun l => rev l)) in E; rewrite rev_app_distr in E; cbn in E; congruence.
    - intros x Hx E. cbn [In] in Ha, Hb.
      destruct Ha as [<-|[<-|[<-|[<-|[<-|[]]]]]]; destruct Hb as [<-|[<-|[<-|[<-|[<-|[]]]]]]; try congruence;
      apply (f_equal (fun l => rev l)) in E; rewrite rev_app_distr in E; cbn in E; congruence. }
  destruct R as [<-|[<-|[<-|[<-|[<-|[]]]]]];
  repeat match goal with
  | |- context [if ends_with ?a (64 :: mid ++ ?a) then _ else _] => rewrite (EW a a) by (exists []; reflexivity)
  | |- context [if ends_with ?a (64 :: mid ++ ?b) then _ else _] => rewrite (V1 a) by (cbn; auto 7; discriminate)
  end; match goal with |- context [header_name _ (64 :: mid ++ ?sfx)] => specialize (P sfx) end;
  match type of P with ?l = _ => match goal with |- context [header_name ?k ?x] => change (header_name k x) with l end end; rewrite P; reflexivity.
Qed.
