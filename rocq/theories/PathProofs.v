(** Proofs about paths. *)
From Verif Require Import Base Str M_Raw SpecInto IntoProofs ResFilesProofs SpecPath.

Lemma skip_comp b : Forall skip_segment b -> flat_map comp_of b = [].
Proof. induction 1 as [|x b [->| ->] _ IH]; [reflexivity|exact IH|exact IH]. Qed.
Lemma one_comp s : ~ skip_segment s -> exists c, comp_of s = [c].
Proof. intros H. destruct (comp_of_cases s) as [[K _]|[[_ ->]|[_ ->]]]; [contradiction|eauto..]. Qed.
(** the last component comes from the last segment that is not skipped *)
Lemma peel (X : list comp) t pre c : X ++ flat_map comp_of t = pre ++ [c] ->
  (exists t1 s b, t = t1 ++ s :: b /\ Forall skip_segment b /\ comp_of s = [c] /\ X ++ flat_map comp_of t1 = pre) \/ (Forall skip_segment t /\ X = pre ++ [c]).
Proof.
  induction t as [|s t IH] using rev_ind; intros E; [right; split; [constructor|]; cbn in E; now rewrite app_nil_r in E|].
  rewrite flat_map_app in E. cbn [flat_map] in E. rewrite app_nil_r in E. destruct (comp_of_cases s) as [[S C]|H].
  - rewrite C, app_nil_r in E. destruct (IH E) as [(t1 & x & b & -> & F & Cx & P)|(F & P)].
    + left. exists t1, x, (b ++ [s]). rewrite <- app_assoc. split; [reflexivity|]. split; [apply Forall_app; auto|auto].
    + right. split; [apply Forall_app; auto|exact P].
  - assert (C : exists d, comp_of s = [d]) by (destruct H as [[_ ->]|[_ ->]]; eauto). destruct C as (d & C). rewrite C, app_assoc in E. apply app_inj_tail in E as [E ->].
    left. exists t, s, []. split; [reflexivity|]. split; [constructor|]. auto.
Qed.
(** the components of the first segment *)
Definition first_comp (p h : str) : list comp :=
  match p with [] => [] | _ => if str_eqb h [] then [RootDir] else if str_eqb h (lit ".") then [CurDir] else comp_of h end.
Lemma components_eq p h t : split_on 47 p = h :: t -> components p = first_comp p h ++ flat_map comp_of t.
Proof. intros E. unfold components. change SLASH with 47. rewrite E. reflexivity. Qed.
Lemma first_short p h pre c d : first_comp p h = pre ++ [c; d] -> False.
Proof.
  intros E. assert (L : (length (first_comp p h) <= 1)%nat).
  { unfold first_comp. destruct p; [cbn; lia|]. destruct (str_eqb h []); [cbn; lia|]. destruct (str_eqb h (lit ".")); [cbn; lia|]. unfold comp_of. repeat destruct (str_eqb _ _); cbn; lia. }
  rewrite E, app_length in L. cbn in L. lia.
Qed.
Lemma first_normal p h pre n : first_comp p h = pre ++ [Normal n] -> h = n /\ plain_segment n.
Proof.
  intros E. assert (pre = []) as ->. { destruct pre as [|x pre]; [reflexivity|]. exfalso. destruct pre as [|y pre] using rev_ind; [exact (first_short p h [] _ _ E)|]. apply (first_short p h (x :: pre) y (Normal n)). rewrite E. cbn. now rewrite <- app_assoc. }
  cbn [app] in E. unfold first_comp in E. destruct p; [discriminate|]. destruct (str_eqb h []); [discriminate|]. destruct (str_eqb h (lit ".")); [discriminate|].
  destruct (comp_of_cases h) as [[_ C]|[[_ C]|[P C]]]; rewrite C in E; try discriminate E. injection E as ->. auto.
Qed.
Lemma normal_comp s n : comp_of s = [Normal n] -> s = n /\ plain_segment n.
Proof. destruct (comp_of_cases s) as [[_ C]|[[_ C]|[P C]]]; rewrite C; intros E; try discriminate E. injection E as ->. auto. Qed.
Definition ends_in (ss : list str) (folder name : str) : Prop :=
  plain_segment folder /\ plain_segment name /\ exists a b m b' b2, ss = a ++ folder :: b ++ m :: b' ++ name :: b2 /\ Forall skip_segment b /\ ~ skip_segment m /\ Forall skip_segment b' /\ Forall skip_segment b2.
Lemma components_ends p folder name : (exists pre mid, components p = pre ++ [Normal folder; mid; Normal name] /\ mid <> RootDir) <-> ends_in (split_on 47 p) folder name.
Proof.
  destruct (split_on 47 p) as [|h t] eqn:E; [now apply split_on_nonnil in E|]. rewrite (components_eq p h t E). split.
  - intros (pre & mid & C & M). change [Normal folder; mid; Normal name] with ([Normal folder] ++ [mid] ++ [Normal name]) in C. rewrite !app_assoc in C.
    apply peel in C as [(t1 & s & b2 & -> & F2 & N1 & C)|(_ & C)]; [|exfalso; rewrite <- app_assoc in C; exact (first_short _ _ _ _ _ C)].
    apply peel in C as [(t2 & m & b' & -> & F1 & Cm & C)|(_ & C)]; [|exfalso; rewrite <- app_assoc in C; exact (first_short _ _ _ _ _ C)].
    apply normal_comp in N1 as [-> P2]. assert (Km : ~ skip_segment m) by (intros [->| ->]; discriminate Cm).
    apply peel in C as [(t3 & f & b & -> & F0 & Cf & _)|(F0 & C)].
    + apply normal_comp in Cf as [-> P1]. split; [exact P1|]. split; [exact P2|]. exists (h :: t3), b, m, b', b2. split; [|auto]. cbn [app]. now rewrite <- !app_assoc.
    + apply first_normal in C as [-> P1]. split; [exact P1|]. split; [exact P2|]. exists [], t2, m, b', b2. split; [|auto]. cbn [app]. now rewrite <- !app_assoc.
  - intros (P1 & P2 & a & b & m & b' & b2 & S & F0 & Km & F1 & F2). destruct (one_comp m Km) as (cm & Cm).
    assert (Cn : comp_of name = [Normal name]) by (destruct (comp_of_cases name) as [[K _]|[[K _]|[_ K]]]; [now apply plain_not_skip in P2|destruct P2 as (_ & _ & P2); contradiction|exact K]).
    assert (Cf : comp_of folder = [Normal folder]) by (destruct (comp_of_cases folder) as [[K _]|[[K _]|[_ K]]]; [now apply plain_not_skip in P1|destruct P1 as (_ & _ & P1); contradiction|exact K]).
    assert (R : flat_map comp_of (b ++ m :: b' ++ name :: b2) = [cm; Normal name]).
    { rewrite flat_map_app, (skip_comp b F0). cbn [flat_map app]. rewrite Cm, flat_map_app, (skip_comp b' F1). cbn [flat_map app]. now rewrite Cn, (skip_comp b2 F2). }
    assert (Mr : cm <> RootDir) by (intros ->; destruct (comp_of_cases m) as [[_ K]|[[_ K]|[_ K]]]; rewrite K in Cm; discriminate Cm).
    destruct a as [|h' a]; cbn [app] in S; injection S as <- ->.
    + exists [], cm. split; [|exact Mr]. rewrite R. enough (first_comp p h = [Normal h]) as -> by reflexivity. unfold first_comp. destruct p as [|x p]; [exfalso; cbn in E; injection E as E _; destruct P1; congruence|].
      destruct P1 as (Q1 & Q2 & Q3). destruct (str_eqb_spec h []); [contradiction|]. destruct (str_eqb_spec h (lit ".")); [contradiction|exact Cf].
    + exists (first_comp p h ++ flat_map comp_of a), cm. split; [|exact Mr]. rewrite flat_map_app. cbn [flat_map]. rewrite Cf, R. now rewrite <- app_assoc.
Qed.
Lemma no_slash_skip ss : Forall skip_segment ss -> Forall (fun s => ~ In 47 s) ss.
Proof. intros F. eapply Forall_impl; [|exact F]. intros s [->| ->]; [intros []|intros [|[]]; discriminate]. Qed.
Lemma split_before a rest : split_on 47 (a ++ 47 :: rest) = split_on 47 a ++ split_on 47 rest.
Proof.
  induction a as [|c a IH]; [reflexivity|]. cbn [app split_on]. rewrite IH. destruct (c =? 47); [reflexivity|].
  pose proof (split_on_nonnil 47 a). destruct (split_on 47 a); [contradiction|reflexivity].
Qed.
Lemma lies_ends p folder name : lies_in p folder name <-> ends_in (split_on 47 p) folder name.
Proof.
  unfold lies_in, ends_in, segment. split.
  - intros ((A1 & A2 & A3) & A4 & (B1 & B2 & B3) & B4 & before & g & mid & g' & after & E & B & (s & S & ->) & (M1 & M2 & M3) & (s' & S' & ->) & SA). split; [repeat split; auto|]. split; [repeat split; auto|].
    apply skipped_slashed in S as (b & F0 & ->). apply skipped_slashed in S' as (b' & F1 & ->). apply skipped_slashed in SA as (b2 & F2 & ->).
    assert (Km : ~ skip_segment mid) by (intros [->| ->]; congruence).
    assert (J : split_on 47 (folder ++ (slashed b ++ [47]) ++ mid ++ (slashed b' ++ [47]) ++ name ++ slashed b2) = folder :: b ++ mid :: b' ++ name :: b2).
    { transitivity (split_on 47 (join 47 (folder :: b ++ mid :: b' ++ name :: b2))).
      - f_equal. rewrite join_slashed, slashed_app. cbn [slashed flat_map]. rewrite flat_map_app. fold (slashed b'). cbn [flat_map]. fold (slashed b2). rewrite <- !app_assoc. reflexivity.
      - apply split_join; [discriminate|]. constructor; [exact A3|]. apply Forall_app. split; [now apply no_slash_skip|]. constructor; [exact M3|]. apply Forall_app. split; [now apply no_slash_skip|]. constructor; [exact B3|now apply no_slash_skip]. }
    destruct B as [->|(a & ->)].
    + exists [], b, mid, b', b2. rewrite E. cbn [app]. auto.
    + exists (split_on 47 a), b, mid, b', b2. rewrite E, <- app_assoc. cbn [app]. rewrite split_before, J. auto.
  - intros ((A1 & A2 & A4) & (B1 & B2 & B4) & a & b & m & b' & b2 & E & F0 & Km & F1 & F2). pose proof (split_on_In 47 p) as I. rewrite E, !Forall_app, Forall_cons_iff, !Forall_app, Forall_cons_iff, Forall_app, Forall_cons_iff in I.
    destruct I as (_ & A3 & _ & M3 & _ & B3 & _). split; [auto|]. split; [exact A4|]. split; [auto|]. split; [exact B4|].
    assert (J : folder ++ slashed (b ++ m :: b' ++ name :: b2) = folder ++ (slashed b ++ [47]) ++ m ++ (slashed b' ++ [47]) ++ name ++ slashed b2).
    { rewrite slashed_app. cbn [slashed flat_map]. rewrite flat_map_app. fold (slashed b'). cbn [flat_map]. fold (slashed b2). rewrite <- !app_assoc. reflexivity. }
    assert (M : m <> [] /\ m <> lit "." /\ ~ In 47 m) by (split; [intros ->; apply Km; now left|]; split; [intros ->; apply Km; now right|exact M3]).
    assert (G : forall x, Forall skip_segment x -> gap (slashed x ++ [47])) by (intros x Fx; exists (slashed x); split; [apply skipped_slashed; eauto|reflexivity]).
    assert (K : skipped (slashed b2)) by (apply skipped_slashed; eauto).
    destruct a as [|h a].
    + exists [], (slashed b ++ [47]), m, (slashed b' ++ [47]), (slashed b2). split; [|auto 7]. rewrite <- (join_split 47 p), E. cbn [app]. rewrite join_slashed. exact J.
    + exists ((h ++ slashed a) ++ [47]), (slashed b ++ [47]), m, (slashed b' ++ [47]), (slashed b2). split; [|split; [right; eauto|auto]]. rewrite <- (join_split 47 p), E. cbn [app]. rewrite join_slashed, slashed_app. cbn [slashed flat_map]. fold (slashed (b ++ m :: b' ++ name :: b2)).
      rewrite <- !app_assoc. cbn [app]. do 2 f_equal. f_equal. rewrite J. now rewrite <- !app_assoc.
Qed.
