(** Which block containers are lost when a logic is written and read again. *)
From Coq Require Import Permutation.
From Verif Require Import Base Spec Str M_Logic LogicProofs LogicFileProofs LogicMapProofs.

Definition has_sect (x : screen_logic) : bool := match screen_sects x with [] => false | _ => true end.
Definition cut (kv : str * screen_logic) : str * screen_logic := (fst kv, with_containers (snd kv) []).
Lemma flat_filter (h : screen_logic -> list sect) xs : (forall x, screen_sects x = [] -> h x = []) -> flat_map h (filter has_sect xs) = flat_map h xs.
Proof.
  intros H. induction xs as [|x xs IH]; [reflexivity|]. cbn [filter flat_map]. unfold has_sect at 1. destruct (screen_sects x) eqn:E; [|cbn [flat_map]; now rewrite IH].
  rewrite (H x E). exact IH.
Qed.
Lemma sects_nil x : screen_sects x = [] -> ss_var x = [] /\ ss_list x = [] /\ ss_comp x = [] /\ ss_ev x = [] /\ ss_mb x = [] /\ ss_blk x = [].
Proof.
  unfold screen_sects. intros Z. apply app_eq_nil in Z as [Z ?]. apply app_eq_nil in Z as [? Z]. apply app_eq_nil in Z as [? Z]. apply app_eq_nil in Z as [? Z].
  apply app_eq_nil in Z as [? ?]. auto 10.
Qed.
Lemma pool_filter xs : pool_sects (filter has_sect xs) = pool_sects xs.
Proof. unfold pool_sects. rewrite !flat_filter; auto; intros x Z; apply sects_nil in Z; tauto. Qed.
Lemma pool_cut (a b : list screen_logic) : pool_sects (a ++ map (fun x => with_containers x []) b) = pool_sects (a ++ b).
Proof.
  unfold pool_sects. assert (K : forall h : screen_logic -> list sect, (forall x, h (with_containers x []) = h x) -> flat_map h (a ++ map (fun x => with_containers x []) b) = flat_map h (a ++ b)).
  { intros h H. rewrite !flat_map_app. f_equal. induction b as [|x b IH]; [reflexivity|]. cbn. now rewrite H, IH. }
  now rewrite !K.
Qed.
Lemma reach_stop p e : Forall (fun g => g <> []) p -> p <> [] -> (e = [] \/ exists r, e = [] :: r) -> reach (dropempty (p ++ e)) = concat p.
Proof.
  intros F N E. destruct p as [|g p]; [congruence|]. assert (D : dropempty ((g :: p) ++ e) = (g :: p) ++ e).
  { inversion F; subst. destruct g; [congruence|reflexivity]. }
  rewrite D. destruct E as [->|(r & ->)].
  - rewrite app_nil_r. now apply reach_nonempty.
  - rewrite reach_app_nil. now apply reach_nonempty.
Qed.
Lemma logic_cut mv l a b : logic_ok l -> l = a ++ b -> Forall (fun kv => has_blk (snd kv)) a ->
  (b = [] \/ exists y r, b = y :: r /\ sl_block_containers (snd y) = []) -> (pool_sects (map snd l) <> [] \/ a <> []) ->
  exists r, logic_parse mv (logic_reconstruct l) = Ok r /\ Permutation r (filter (fun kv => has_sect (snd kv)) (a ++ map cut b)).
Proof.
  intros H E A B D. set (l' := filter (fun kv => has_sect (snd kv)) (a ++ map cut b)).
  assert (KEYS : map fst (a ++ map cut b) = map fst l) by (rewrite E, !map_app, map_map; reflexivity).
  assert (FF : forall (P : str * screen_logic -> Prop) m, NoDup (map fst m) -> Forall P m -> NoDup (map fst (filter (fun kv => has_sect (snd kv)) m)) /\ Forall P (filter (fun kv => has_sect (snd kv)) m)).
  { intros P m N F. induction m as [|x m IH]; [split; auto|]. cbn [filter map] in *. inversion N; subst. inversion F; subst. destruct IH as [I1 I2]; auto.
    destruct (has_sect (snd x)); auto. split; [|constructor; auto]. cbn [map]. constructor; auto. intros I. apply in_map_iff in I as (z & Ez & I). apply filter_In in I as [I _].
    apply H2. rewrite <- Ez. now apply in_map. }
  assert (OK' : logic_ok l').
  { destruct H as [N F]. apply FF; [now rewrite KEYS|]. rewrite E in F. apply Forall_app in F as [Fa Fb]. apply Forall_app. split; [exact Fa|].
    apply Forall_map. eapply Forall_impl; [|exact Fb]. intros kv (K1 & (K2 & K3) & K4). cbn [cut fst snd with_containers sl_name sl_block_containers]. split; [exact K1|]. split; [|constructor].
    split; [exact K2|]. unfold ss_blk. cbn. split; [constructor|]. intros r s Z. destruct r; discriminate Z. }
  assert (SF : forall m, map snd (filter (fun kv : str * screen_logic => has_sect (snd kv)) m) = filter has_sect (map snd m)).
  { induction m as [|x m IH]; [reflexivity|]. cbn [filter map]. destruct (has_sect (snd x)); cbn [map]; now rewrite IH. }
  assert (SE : map snd l' = filter has_sect (map snd a ++ map (fun x => with_containers x []) (map snd b))).
  { unfold l'. rewrite SF, map_app, !map_map. reflexivity. }
  assert (KA : filter has_sect (map snd a) = map snd a).
  { clear - A. induction A as [|x a Hx A IH]; [reflexivity|]. cbn [map filter]. unfold has_sect at 1. destruct (screen_sects (snd x)) eqn:Z; [|now rewrite IH].
    apply sects_nil in Z as (_ & _ & _ & _ & _ & Z). apply ss_blk_nil in Z. contradiction. }
  assert (BF : blk_first (map snd l')).
  { exists (map snd a), (filter has_sect (map (fun x => with_containers x []) (map snd b))). rewrite SE, filter_app, KA. split; [reflexivity|]. split; [now apply Forall_map|].
    apply Forall_forall. intros x I. apply filter_In in I as [I _]. apply in_map_iff in I as (y & <- & _). reflexivity. }
  assert (NE : Forall (fun x => screen_sects x <> []) (map snd l')).
  { apply Forall_forall. intros x I. rewrite SE in I. apply filter_In in I as [_ I]. unfold has_sect in I. destruct (screen_sects x); [discriminate I|discriminate]. }
  destruct (logic_same mv l' OK' BF NE) as (r & R & P). exists r. split; [|exact P].
  destruct (logic_names l H) as (_ & _ & F1). destruct (logic_names l' OK') as (_ & _ & F2).
  rewrite logic_reparse in R |- * by auto. rewrite <- R. f_equal. f_equal.
  assert (PE : pool_sects (map snd l') = pool_sects (map snd l)) by (rewrite SE, pool_filter, pool_cut, <- map_app, <- E; reflexivity).
  set (Q := map (fun s => [s]) (pool_sects (map snd l)) ++ map ss_blk (map snd a)).
  assert (QN : Forall (fun g => g <> []) Q).
  { apply Forall_app. split; [apply Forall_map, Forall_forall; discriminate|]. rewrite map_map. apply Forall_map. eapply Forall_impl; [|exact A]. intros x Hx Z. apply Hx. now apply ss_blk_nil. }
  assert (Q0 : Q <> []).
  { unfold Q. destruct D as [D|D]; [destruct (pool_sects (map snd l)); [congruence|discriminate]|]. destruct a; [congruence|]. cbn. destruct (map (fun s => [s]) (pool_sects (map snd l))); discriminate. }
  transitivity (concat Q).
  - unfold groups. rewrite E at 2. rewrite !map_app, app_assoc. fold Q. apply reach_stop; auto. destruct B as [->|(y & rr & -> & Hy)]; [now left|right].
    exists (map ss_blk (map snd rr)). cbn [map]. now rewrite (proj2 (ss_blk_nil _) Hy).
  - unfold groups. rewrite PE. rewrite SE at 1. rewrite filter_app, KA, map_app, app_assoc. fold Q. symmetry. rewrite reach_full; auto.
    + rewrite concat_app. rewrite <- (app_nil_r (concat Q)) at 2. f_equal. rewrite <- flat_map_concat_map.
      assert (Z : forall m, Forall (fun x => ss_blk x = []) m -> flat_map ss_blk m = []).
      { induction 1 as [|x m Hx _ IH]; [reflexivity|]. cbn. now rewrite Hx, IH. }
      apply Z. apply Forall_forall. intros x I. apply filter_In in I as [I _]. apply in_map_iff in I as (y & <- & _). reflexivity.
    + apply Forall_map, Forall_forall. intros x I. apply filter_In in I as [I _]. apply in_map_iff in I as (y & <- & _). reflexivity.
Qed.
