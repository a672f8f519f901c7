(** Proofs for the exact meaning of the [project] object *)
From Coq Require Import Permutation.
From Verif Require Import Base Spec Str Dec Flt Json JsonProofs Recs RecsProofs M_Color M_Date M_Project SpecReading.
From Verif Require SpecNumber StorableProofs.

Fixpoint vals (k : str) (kvs : list (option str * json)) : list json :=
  match kvs with
  | [] => []
  | (k', v) :: r => if okey_eqb k k' then v :: vals k r else vals k r
  end.
(** a field goes from [o] to [o'] over the values [vs] *)
Definition frel {A} (d : json -> res unit A) (o o' : option A) (vs : list json) : Prop :=
  match vs with [] => o' = o | [v] => o = None /\ exists x, d v = Ok x /\ o' = Some x | _ => False end.
Lemma frel_cons {A} (d : json -> res unit A) o o' v vs : frel d o o' (v :: vs) <-> exists x, o = None /\ d v = Ok x /\ frel d (Some x) o' vs.
Proof.
  destruct vs as [|w [|w' vs]]; cbn [frel].
  - split; [intros (-> & x & H & ->); exists x; auto|intros (x & -> & H & ->); eauto].
  - split; [intros []|intros (x & _ & _ & H & _); discriminate].
  - split; [intros []|intros (x & _ & _ & [])].
Qed.
Lemma once_ok {A} (o : option A) r x : once o r = Ok x <-> o = None /\ r = Ok x.
Proof. destruct o; cbn; split; try discriminate; try tauto. intros [H _]. discriminate. Qed.
Definition d_date (v : json) : res unit N := let* s := ok_or tt (d_str v) in date_de s.
Definition dd {A} (d : json -> option A) (v : json) : res unit A := ok_or tt (d v).
Fixpoint other (kvs : list (option str * json)) : list (str * json) :=
  match kvs with
  | [] => []
  | (Some k, v) :: r => if existsb (str_eqb k) project_names then other r else (k, v) :: other r
  | (None, _) :: r => other r
  end.
Definition fold_rel (st st' : pj_state) (kvs : list (option str * json)) : Prop :=
  frel (dd d_u16_text) (ps_id st) (ps_id st') (vals (lit "sc_id") kvs) /\
  frel (dd d_str) (ps_app st) (ps_app st') (vals (lit "my_app_name") kvs) /\
  frel (dd d_str) (ps_ws st) (ps_ws st') (vals (lit "my_ws_name") kvs) /\
  frel (dd d_str) (ps_pkg st) (ps_pkg st') (vals (lit "my_sc_pkg_name") kvs) /\
  frel (dd d_u16_text) (ps_vc st) (ps_vc st') (vals (lit "sc_ver_code") kvs) /\
  frel (dd d_str) (ps_vn st) (ps_vn st') (vals (lit "sc_ver_name") kvs) /\
  frel d_date (ps_date st) (ps_date st') (vals (lit "my_sc_reg_dt") kvs) /\
  frel (dd d_bool) (ps_icon st) (ps_icon st') (vals (lit "custom_icon") kvs) /\
  frel (dd d_u8) (ps_sv st) (ps_sv st') (vals (lit "sketchware_ver") kvs) /\
  ps_rest st' = ps_rest st ++ other kvs /\ Forall entry_ok kvs.
Ltac keys := repeat match goal with H : str_eqb ?a ?b = false |- context [str_eqb ?a ?b] => rewrite H end; rewrite ?str_eqb_refl; cbv iota.
Ltac fields_st := cbn [ps_id ps_app ps_ws ps_pkg ps_vc ps_vn ps_date ps_icon ps_sv ps_rest].
Lemma bind_ok {E A B} (r : res E A) (f : A -> res E B) b : bind r f = Ok b <-> exists a, r = Ok a /\ f a = Ok b.
Proof. destruct r; cbn; split; try discriminate; try (intros (? & ? & ?); discriminate); [eauto|]. intros (a' & [= ->] & H). exact H. Qed.
Lemma pj_fold_iff kvs : forall st st', pj_fold kvs st = Ok st' <-> fold_rel st st' kvs.
Proof.
  induction kvs as [|[k v] kvs IH]; intros st st'.
  - cbn [pj_fold]. unfold fold_rel. cbn [vals frel other]. rewrite app_nil_r. split.
    + intros [= <-]. repeat split; auto.
    + intros (H1 & H2 & H3 & H4 & H5 & H6 & H7 & H8 & H9 & H10 & _). destruct st, st'. cbn in *. congruence.
  - cbn [pj_fold]. rewrite bind_ok. setoid_rewrite IH. clear IH.
    destruct k as [k|]; [|split; [intros (st1 & H & _); discriminate|intros (_ & _ & _ & _ & _ & _ & _ & _ & _ & _ & H)]].
    2:{ inversion H as [|? ? (k & E & _)]; discriminate. }
    unfold fold_rel. cbn [vals okey_eqb other pj_step].
    assert (EX : existsb (str_eqb k) project_names = (str_eqb k (lit "sc_id") || (str_eqb k (lit "my_app_name") || (str_eqb k (lit "my_ws_name") || (str_eqb k (lit "my_sc_pkg_name") || (str_eqb k (lit "sc_ver_code") || (str_eqb k (lit "sc_ver_name") || (str_eqb k (lit "my_sc_reg_dt") || (str_eqb k (lit "custom_icon") || (str_eqb k (lit "sketchware_ver") || false)%bool)%bool)%bool)%bool)%bool)%bool)%bool)%bool)%bool) by reflexivity.
    rewrite EX. clear EX. rewrite Forall_cons_iff.
    assert (SY : forall a b, str_eqb a b = str_eqb b a) by (intros a b; destruct (str_eqb_spec a b), (str_eqb_spec b a); congruence).
    assert (KN : In k project_names -> (entry_ok (Some k, v) <-> True)) by (intros Hk; split; auto; intros _; exists k; split; [reflexivity|left; exact Hk]).
    assert (NK : (forall n, In n project_names -> k <> n) -> entry_ok (Some k, v) -> content_ok CONTENT_DEPTH v = true).
    { intros H (k' & E & [H'|H']); cbn [fst snd] in E, H'; [injection E as <-; now destruct (H k H')|now apply StorableProofs.content_storable]. }
    assert (NK2 : content_ok CONTENT_DEPTH v = true -> entry_ok (Some k, v)) by (intros H; apply StorableProofs.content_storable in H; exists k; cbn [fst snd]; auto).
    unfold project_names in KN, NK.
    assert (D01 : str_eqb (lit "sc_id") (lit "my_app_name") = false) by reflexivity.
    assert (D02 : str_eqb (lit "sc_id") (lit "my_ws_name") = false) by reflexivity.
    assert (D03 : str_eqb (lit "sc_id") (lit "my_sc_pkg_name") = false) by reflexivity.
    assert (D04 : str_eqb (lit "sc_id") (lit "sc_ver_code") = false) by reflexivity.
    assert (D05 : str_eqb (lit "sc_id") (lit "sc_ver_name") = false) by reflexivity.
    assert (D06 : str_eqb (lit "sc_id") (lit "my_sc_reg_dt") = false) by reflexivity.
    assert (D07 : str_eqb (lit "sc_id") (lit "custom_icon") = false) by reflexivity.
    assert (D08 : str_eqb (lit "sc_id") (lit "sketchware_ver") = false) by reflexivity.
    assert (D10 : str_eqb (lit "my_app_name") (lit "sc_id") = false) by reflexivity.
    assert (D12 : str_eqb (lit "my_app_name") (lit "my_ws_name") = false) by reflexivity.
    assert (D13 : str_eqb (lit "my_app_name") (lit "my_sc_pkg_name") = false) by reflexivity.
    assert (D14 : str_eqb (lit "my_app_name") (lit "sc_ver_code") = false) by reflexivity.
    assert (D15 : str_eqb (lit "my_app_name") (lit "sc_ver_name") = false) by reflexivity.
    assert (D16 : str_eqb (lit "my_app_name") (lit "my_sc_reg_dt") = false) by reflexivity.
    assert (D17 : str_eqb (lit "my_app_name") (lit "custom_icon") = false) by reflexivity.
    assert (D18 : str_eqb (lit "my_app_name") (lit "sketchware_ver") = false) by reflexivity.
    assert (D20 : str_eqb (lit "my_ws_name") (lit "sc_id") = false) by reflexivity.
    assert (D21 : str_eqb (lit "my_ws_name") (lit "my_app_name") = false) by reflexivity.
    assert (D23 : str_eqb (lit "my_ws_name") (lit "my_sc_pkg_name") = false) by reflexivity.
    assert (D24 : str_eqb (lit "my_ws_name") (lit "sc_ver_code") = false) by reflexivity.
    assert (D25 : str_eqb (lit "my_ws_name") (lit "sc_ver_name") = false) by reflexivity.
    assert (D26 : str_eqb (lit "my_ws_name") (lit "my_sc_reg_dt") = false) by reflexivity.
    assert (D27 : str_eqb (lit "my_ws_name") (lit "custom_icon") = false) by reflexivity.
    assert (D28 : str_eqb (lit "my_ws_name") (lit "sketchware_ver") = false) by reflexivity.
    assert (D30 : str_eqb (lit "my_sc_pkg_name") (lit "sc_id") = false) by reflexivity.
    assert (D31 : str_eqb (lit "my_sc_pkg_name") (lit "my_app_name") = false) by reflexivity.
    assert (D32 : str_eqb (lit "my_sc_pkg_name") (lit "my_ws_name") = false) by reflexivity.
    assert (D34 : str_eqb (lit "my_sc_pkg_name") (lit "sc_ver_code") = false) by reflexivity.
    assert (D35 : str_eqb (lit "my_sc_pkg_name") (lit "sc_ver_name") = false) by reflexivity.
    assert (D36 : str_eqb (lit "my_sc_pkg_name") (lit "my_sc_reg_dt") = false) by reflexivity.
    assert (D37 : str_eqb (lit "my_sc_pkg_name") (lit "custom_icon") = false) by reflexivity.
    assert (D38 : str_eqb (lit "my_sc_pkg_name") (lit "sketchware_ver") = false) by reflexivity.
    assert (D40 : str_eqb (lit "sc_ver_code") (lit "sc_id") = false) by reflexivity.
    assert (D41 : str_eqb (lit "sc_ver_code") (lit "my_app_name") = false) by reflexivity.
    assert (D42 : str_eqb (lit "sc_ver_code") (lit "my_ws_name") = false) by reflexivity.
    assert (D43 : str_eqb (lit "sc_ver_code") (lit "my_sc_pkg_name") = false) by reflexivity.
    assert (D45 : str_eqb (lit "sc_ver_code") (lit "sc_ver_name") = false) by reflexivity.
    assert (D46 : str_eqb (lit "sc_ver_code") (lit "my_sc_reg_dt") = false) by reflexivity.
    assert (D47 : str_eqb (lit "sc_ver_code") (lit "custom_icon") = false) by reflexivity.
    assert (D48 : str_eqb (lit "sc_ver_code") (lit "sketchware_ver") = false) by reflexivity.
    assert (D50 : str_eqb (lit "sc_ver_name") (lit "sc_id") = false) by reflexivity.
    assert (D51 : str_eqb (lit "sc_ver_name") (lit "my_app_name") = false) by reflexivity.
    assert (D52 : str_eqb (lit "sc_ver_name") (lit "my_ws_name") = false) by reflexivity.
    assert (D53 : str_eqb (lit "sc_ver_name") (lit "my_sc_pkg_name") = false) by reflexivity.
    assert (D54 : str_eqb (lit "sc_ver_name") (lit "sc_ver_code") = false) by reflexivity.
    assert (D56 : str_eqb (lit "sc_ver_name") (lit "my_sc_reg_dt") = false) by reflexivity.
    assert (D57 : str_eqb (lit "sc_ver_name") (lit "custom_icon") = false) by reflexivity.
    assert (D58 : str_eqb (lit "sc_ver_name") (lit "sketchware_ver") = false) by reflexivity.
    assert (D60 : str_eqb (lit "my_sc_reg_dt") (lit "sc_id") = false) by reflexivity.
    assert (D61 : str_eqb (lit "my_sc_reg_dt") (lit "my_app_name") = false) by reflexivity.
    assert (D62 : str_eqb (lit "my_sc_reg_dt") (lit "my_ws_name") = false) by reflexivity.
    assert (D63 : str_eqb (lit "my_sc_reg_dt") (lit "my_sc_pkg_name") = false) by reflexivity.
    assert (D64 : str_eqb (lit "my_sc_reg_dt") (lit "sc_ver_code") = false) by reflexivity.
    assert (D65 : str_eqb (lit "my_sc_reg_dt") (lit "sc_ver_name") = false) by reflexivity.
    assert (D67 : str_eqb (lit "my_sc_reg_dt") (lit "custom_icon") = false) by reflexivity.
    assert (D68 : str_eqb (lit "my_sc_reg_dt") (lit "sketchware_ver") = false) by reflexivity.
    assert (D70 : str_eqb (lit "custom_icon") (lit "sc_id") = false) by reflexivity.
    assert (D71 : str_eqb (lit "custom_icon") (lit "my_app_name") = false) by reflexivity.
    assert (D72 : str_eqb (lit "custom_icon") (lit "my_ws_name") = false) by reflexivity.
    assert (D73 : str_eqb (lit "custom_icon") (lit "my_sc_pkg_name") = false) by reflexivity.
    assert (D74 : str_eqb (lit "custom_icon") (lit "sc_ver_code") = false) by reflexivity.
    assert (D75 : str_eqb (lit "custom_icon") (lit "sc_ver_name") = false) by reflexivity.
    assert (D76 : str_eqb (lit "custom_icon") (lit "my_sc_reg_dt") = false) by reflexivity.
    assert (D78 : str_eqb (lit "custom_icon") (lit "sketchware_ver") = false) by reflexivity.
    assert (D80 : str_eqb (lit "sketchware_ver") (lit "sc_id") = false) by reflexivity.
    assert (D81 : str_eqb (lit "sketchware_ver") (lit "my_app_name") = false) by reflexivity.
    assert (D82 : str_eqb (lit "sketchware_ver") (lit "my_ws_name") = false) by reflexivity.
    assert (D83 : str_eqb (lit "sketchware_ver") (lit "my_sc_pkg_name") = false) by reflexivity.
    assert (D84 : str_eqb (lit "sketchware_ver") (lit "sc_ver_code") = false) by reflexivity.
    assert (D85 : str_eqb (lit "sketchware_ver") (lit "sc_ver_name") = false) by reflexivity.
    assert (D86 : str_eqb (lit "sketchware_ver") (lit "my_sc_reg_dt") = false) by reflexivity.
    assert (D87 : str_eqb (lit "sketchware_ver") (lit "custom_icon") = false) by reflexivity.
    rewrite (SY (lit "sc_id") k).
    rewrite (SY (lit "my_app_name") k).
    rewrite (SY (lit "my_ws_name") k).
    rewrite (SY (lit "my_sc_pkg_name") k).
    rewrite (SY (lit "sc_ver_code") k).
    rewrite (SY (lit "sc_ver_name") k).
    rewrite (SY (lit "my_sc_reg_dt") k).
    rewrite (SY (lit "custom_icon") k).
    rewrite (SY (lit "sketchware_ver") k).
    generalize dependent (lit "sc_id"). intros n0; intros.
    generalize dependent (lit "my_app_name"). intros n1; intros.
    generalize dependent (lit "my_ws_name"). intros n2; intros.
    generalize dependent (lit "my_sc_pkg_name"). intros n3; intros.
    generalize dependent (lit "sc_ver_code"). intros n4; intros.
    generalize dependent (lit "sc_ver_name"). intros n5; intros.
    generalize dependent (lit "my_sc_reg_dt"). intros n6; intros.
    generalize dependent (lit "custom_icon"). intros n7; intros.
    generalize dependent (lit "sketchware_ver"). intros n8; intros.
    clear SY.
    destruct (str_eqb_spec k n0) as [->|E0].
    { keys; cbn [orb]. rewrite frel_cons, KN by (cbn; auto 10). clear KN NK NK2. unfold dd, d_date. split.
      - intros (st1 & H0 & H). apply bind_ok in H0 as (x & Hx & H0). apply once_ok in Hx as [Ho Hx]. assert (H1 := f_equal (fun r => match r with Ok z => z | _ => st end) H0). cbv beta iota in H1. subst st1. clear H0.
        cbn [ps_id ps_app ps_ws ps_pkg ps_vc ps_vn ps_date ps_icon ps_sv ps_rest] in H. destruct H as (H1 & H2 & H3 & H4 & H5 & H6 & H7 & H8 & H9 & H10 & H11). repeat (split; [first [assumption|exists x; repeat split; assumption]|]). split; auto.
      - intros (H1 & H2 & H3 & H4 & H5 & H6 & H7 & H8 & H9 & H10 & _ & H11).
        match goal with H : exists x, _ |- _ => destruct H as (x & Ho & Hx & H) end. eexists. split; [apply bind_ok; exists x; split; [apply once_ok; split; assumption|reflexivity]|].
        fields_st. repeat (split; [assumption|]). assumption. }
    destruct (str_eqb_spec k n1) as [->|E1].
    { keys; cbn [orb]. rewrite frel_cons, KN by (cbn; auto 10). clear KN NK NK2. unfold dd, d_date. split.
      - intros (st1 & H0 & H). apply bind_ok in H0 as (x & Hx & H0). apply once_ok in Hx as [Ho Hx]. assert (H1 := f_equal (fun r => match r with Ok z => z | _ => st end) H0). cbv beta iota in H1. subst st1. clear H0.
        cbn [ps_id ps_app ps_ws ps_pkg ps_vc ps_vn ps_date ps_icon ps_sv ps_rest] in H. destruct H as (H1 & H2 & H3 & H4 & H5 & H6 & H7 & H8 & H9 & H10 & H11). repeat (split; [first [assumption|exists x; repeat split; assumption]|]). split; auto.
      - intros (H1 & H2 & H3 & H4 & H5 & H6 & H7 & H8 & H9 & H10 & _ & H11).
        match goal with H : exists x, _ |- _ => destruct H as (x & Ho & Hx & H) end. eexists. split; [apply bind_ok; exists x; split; [apply once_ok; split; assumption|reflexivity]|].
        fields_st. repeat (split; [assumption|]). assumption. }
    destruct (str_eqb_spec k n2) as [->|E2].
    { keys; cbn [orb]. rewrite frel_cons, KN by (cbn; auto 10). clear KN NK NK2. unfold dd, d_date. split.
      - intros (st1 & H0 & H). apply bind_ok in H0 as (x & Hx & H0). apply once_ok in Hx as [Ho Hx]. assert (H1 := f_equal (fun r => match r with Ok z => z | _ => st end) H0). cbv beta iota in H1. subst st1. clear H0.
        cbn [ps_id ps_app ps_ws ps_pkg ps_vc ps_vn ps_date ps_icon ps_sv ps_rest] in H. destruct H as (H1 & H2 & H3 & H4 & H5 & H6 & H7 & H8 & H9 & H10 & H11). repeat (split; [first [assumption|exists x; repeat split; assumption]|]). split; auto.
      - intros (H1 & H2 & H3 & H4 & H5 & H6 & H7 & H8 & H9 & H10 & _ & H11).
        match goal with H : exists x, _ |- _ => destruct H as (x & Ho & Hx & H) end. eexists. split; [apply bind_ok; exists x; split; [apply once_ok; split; assumption|reflexivity]|].
        fields_st. repeat (split; [assumption|]). assumption. }
    destruct (str_eqb_spec k n3) as [->|E3].
    { keys; cbn [orb]. rewrite frel_cons, KN by (cbn; auto 10). clear KN NK NK2. unfold dd, d_date. split.
      - intros (st1 & H0 & H). apply bind_ok in H0 as (x & Hx & H0). apply once_ok in Hx as [Ho Hx]. assert (H1 := f_equal (fun r => match r with Ok z => z | _ => st end) H0). cbv beta iota in H1. subst st1. clear H0.
        cbn [ps_id ps_app ps_ws ps_pkg ps_vc ps_vn ps_date ps_icon ps_sv ps_rest] in H. destruct H as (H1 & H2 & H3 & H4 & H5 & H6 & H7 & H8 & H9 & H10 & H11). repeat (split; [first [assumption|exists x; repeat split; assumption]|]). split; auto.
      - intros (H1 & H2 & H3 & H4 & H5 & H6 & H7 & H8 & H9 & H10 & _ & H11).
        match goal with H : exists x, _ |- _ => destruct H as (x & Ho & Hx & H) end. eexists. split; [apply bind_ok; exists x; split; [apply once_ok; split; assumption|reflexivity]|].
        fields_st. repeat (split; [assumption|]). assumption. }
    destruct (str_eqb_spec k n4) as [->|E4].
    { keys; cbn [orb]. rewrite frel_cons, KN by (cbn; auto 10). clear KN NK NK2. unfold dd, d_date. split.
      - intros (st1 & H0 & H). apply bind_ok in H0 as (x & Hx & H0). apply once_ok in Hx as [Ho Hx]. assert (H1 := f_equal (fun r => match r with Ok z => z | _ => st end) H0). cbv beta iota in H1. subst st1. clear H0.
        cbn [ps_id ps_app ps_ws ps_pkg ps_vc ps_vn ps_date ps_icon ps_sv ps_rest] in H. destruct H as (H1 & H2 & H3 & H4 & H5 & H6 & H7 & H8 & H9 & H10 & H11). repeat (split; [first [assumption|exists x; repeat split; assumption]|]). split; auto.
      - intros (H1 & H2 & H3 & H4 & H5 & H6 & H7 & H8 & H9 & H10 & _ & H11).
        match goal with H : exists x, _ |- _ => destruct H as (x & Ho & Hx & H) end. eexists. split; [apply bind_ok; exists x; split; [apply once_ok; split; assumption|reflexivity]|].
        fields_st. repeat (split; [assumption|]). assumption. }
    destruct (str_eqb_spec k n5) as [->|E5].
    { keys; cbn [orb]. rewrite frel_cons, KN by (cbn; auto 10). clear KN NK NK2. unfold dd, d_date. split.
      - intros (st1 & H0 & H). apply bind_ok in H0 as (x & Hx & H0). apply once_ok in Hx as [Ho Hx]. assert (H1 := f_equal (fun r => match r with Ok z => z | _ => st end) H0). cbv beta iota in H1. subst st1. clear H0.
        cbn [ps_id ps_app ps_ws ps_pkg ps_vc ps_vn ps_date ps_icon ps_sv ps_rest] in H. destruct H as (H1 & H2 & H3 & H4 & H5 & H6 & H7 & H8 & H9 & H10 & H11). repeat (split; [first [assumption|exists x; repeat split; assumption]|]). split; auto.
      - intros (H1 & H2 & H3 & H4 & H5 & H6 & H7 & H8 & H9 & H10 & _ & H11).
        match goal with H : exists x, _ |- _ => destruct H as (x & Ho & Hx & H) end. eexists. split; [apply bind_ok; exists x; split; [apply once_ok; split; assumption|reflexivity]|].
        fields_st. repeat (split; [assumption|]). assumption. }
    destruct (str_eqb_spec k n6) as [->|E6].
    { keys; cbn [orb]. rewrite frel_cons, KN by (cbn; auto 10). clear KN NK NK2. unfold dd, d_date. split.
      - intros (st1 & H0 & H). apply bind_ok in H0 as (x & Hx & H0). apply once_ok in Hx as [Ho Hx]. assert (H1 := f_equal (fun r => match r with Ok z => z | _ => st end) H0). cbv beta iota in H1. subst st1. clear H0.
        cbn [ps_id ps_app ps_ws ps_pkg ps_vc ps_vn ps_date ps_icon ps_sv ps_rest] in H. destruct H as (H1 & H2 & H3 & H4 & H5 & H6 & H7 & H8 & H9 & H10 & H11). repeat (split; [first [assumption|exists x; repeat split; assumption]|]). split; auto.
      - intros (H1 & H2 & H3 & H4 & H5 & H6 & H7 & H8 & H9 & H10 & _ & H11).
        match goal with H : exists x, _ |- _ => destruct H as (x & Ho & Hx & H) end. eexists. split; [apply bind_ok; exists x; split; [apply once_ok; split; assumption|reflexivity]|].
        fields_st. repeat (split; [assumption|]). assumption. }
    destruct (str_eqb_spec k n7) as [->|E7].
    { keys; cbn [orb]. rewrite frel_cons, KN by (cbn; auto 10). clear KN NK NK2. unfold dd, d_date. split.
      - intros (st1 & H0 & H). apply bind_ok in H0 as (x & Hx & H0). apply once_ok in Hx as [Ho Hx]. assert (H1 := f_equal (fun r => match r with Ok z => z | _ => st end) H0). cbv beta iota in H1. subst st1. clear H0.
        cbn [ps_id ps_app ps_ws ps_pkg ps_vc ps_vn ps_date ps_icon ps_sv ps_rest] in H. destruct H as (H1 & H2 & H3 & H4 & H5 & H6 & H7 & H8 & H9 & H10 & H11). repeat (split; [first [assumption|exists x; repeat split; assumption]|]). split; auto.
      - intros (H1 & H2 & H3 & H4 & H5 & H6 & H7 & H8 & H9 & H10 & _ & H11).
        match goal with H : exists x, _ |- _ => destruct H as (x & Ho & Hx & H) end. eexists. split; [apply bind_ok; exists x; split; [apply once_ok; split; assumption|reflexivity]|].
        fields_st. repeat (split; [assumption|]). assumption. }
    destruct (str_eqb_spec k n8) as [->|E8].
    { keys; cbn [orb]. rewrite frel_cons, KN by (cbn; auto 10). clear KN NK NK2. unfold dd, d_date. split.
      - intros (st1 & H0 & H). apply bind_ok in H0 as (x & Hx & H0). apply once_ok in Hx as [Ho Hx]. assert (H1 := f_equal (fun r => match r with Ok z => z | _ => st end) H0). cbv beta iota in H1. subst st1. clear H0.
        cbn [ps_id ps_app ps_ws ps_pkg ps_vc ps_vn ps_date ps_icon ps_sv ps_rest] in H. destruct H as (H1 & H2 & H3 & H4 & H5 & H6 & H7 & H8 & H9 & H10 & H11). repeat (split; [first [assumption|exists x; repeat split; assumption]|]). split; auto.
      - intros (H1 & H2 & H3 & H4 & H5 & H6 & H7 & H8 & H9 & H10 & _ & H11).
        match goal with H : exists x, _ |- _ => destruct H as (x & Ho & Hx & H) end. eexists. split; [apply bind_ok; exists x; split; [apply once_ok; split; assumption|reflexivity]|].
        fields_st. repeat (split; [assumption|]). assumption. }
    cbn [orb]. assert (NKk : entry_ok (Some k, v) -> content_ok CONTENT_DEPTH v = true).
    { apply NK. intros n [<-|[<-|[<-|[<-|[<-|[<-|[<-|[<-|[<-|[]]]]]]]]]]; assumption. }
    clear NK KN. destruct (content_ok CONTENT_DEPTH v) eqn:C.
    + split.
      * intros (st1 & H0 & H). assert (H1 := f_equal (fun r => match r with Ok z => z | _ => st end) H0). cbv beta iota in H1. subst st1. clear H0.
        cbn [ps_id ps_app ps_ws ps_pkg ps_vc ps_vn ps_date ps_icon ps_sv ps_rest] in H. rewrite <- app_assoc in H. cbn [app] in H. destruct H as (H1 & H2 & H3 & H4 & H5 & H6 & H7 & H8 & H9 & H10 & H11). repeat (split; [assumption|]). split; auto.
      * intros (H1 & H2 & H3 & H4 & H5 & H6 & H7 & H8 & H9 & H10 & _ & H11). eexists. split; [reflexivity|]. fields_st. rewrite <- app_assoc. cbn [app]. repeat (split; [assumption|]). assumption.
    + split; [intros (st1 & H & _); discriminate|]. intros (_ & _ & _ & _ & _ & _ & _ & _ & _ & _ & X & _). apply NKk in X. discriminate.
Qed.
Lemma vals_filter k kvs : vals k kvs = map snd (filter (fun kv => okey_eqb k (fst kv)) kvs).
Proof. induction kvs as [|[k' v] kvs IH]; [reflexivity|]. cbn [vals filter fst]. destruct (okey_eqb k k'); cbn [map snd]; now rewrite IH. Qed.
Lemma field_vals kvs k : field_of kvs k = match vals k kvs with [] => Some None | [v] => Some (Some v) | _ => None end.
Proof. unfold field_of. rewrite vals_filter. destruct (filter _ kvs) as [|a [|b l]]; reflexivity. Qed.
Definition some_key (kv : str * json) : option str * json := (Some (fst kv), snd kv).
Lemma vals_other k kvs : ~ In k project_names -> vals k (map some_key (other kvs)) = vals k kvs.
Proof.
  intros H. induction kvs as [|[[k'|] v] kvs IH]; cbn [other vals okey_eqb]; auto.
  destruct (existsb (str_eqb k') project_names) eqn:E.
  - destruct (str_eqb_spec k k') as [->|]; auto. apply existsb_exists in E as (n & Hn & En). apply str_eqb_eq in En. subst n. contradiction.
  - cbn [map some_key vals okey_eqb fst snd]. destruct (str_eqb k k'); now rewrite IH.
Qed.
Lemma colour_not_project k : In k colour_names -> ~ In k project_names.
Proof.
  intros H1 H2. assert (X : forallb (fun c => negb (existsb (str_eqb c) project_names)) colour_names = true) by (vm_compute; reflexivity).
  rewrite forallb_forall in X. specialize (X k H1). apply negb_true_iff in X. apply not_true_iff_false in X. apply X.
  apply existsb_exists. exists k. split; auto. apply str_eqb_refl.
Qed.
Definition colour_val (kvs : list (option str * json)) (k : str) (c : color) : Prop := exists v, vals k kvs = [v] /\ d_color v = Some c.
Lemma req_field kvs k c : (exists o, field_of kvs k = Some o /\ req d_color o = Some c) <-> colour_val kvs k c.
Proof.
  unfold colour_val. rewrite field_vals. destruct (vals k kvs) as [|v [|w l]]; split.
  - intros (o & [= <-] & H). discriminate.
  - intros (v & H & _). discriminate.
  - intros (o & [= <-] & H). eauto.
  - intros (v' & [= <-] & H). eexists. split; [reflexivity|exact H].
  - intros (o & H & _). discriminate.
  - intros (v' & H & _). discriminate.
Qed.
Lemma obind_some {A B} (o : option A) (f : A -> option B) b : obind o f = Some b <-> exists a, o = Some a /\ f a = Some b.
Proof. destruct o; cbn; split; try discriminate; try (intros (? & ? & ?); discriminate); eauto. intros (a' & [= ->] & H). exact H. Qed.
Lemma d_palette_iff rest p : d_palette rest = Some p <->
  let kvs := map some_key rest in
  colour_val kvs (lit "color_primary") (pal_primary p) /\ colour_val kvs (lit "color_primary_dark") (pal_primary_dark p) /\
  colour_val kvs (lit "color_accent") (pal_accent p) /\ colour_val kvs (lit "color_control_normal") (pal_control_normal p) /\
  colour_val kvs (lit "color_control_highlight") (pal_control_highlight p).
Proof.
  cbv zeta. rewrite <- !req_field. unfold d_palette, sf, struct_fields. fold some_key. change (fun kv : str * json => (Some (fst kv), snd kv)) with some_key.
  assert (K : forallb key_valid (map some_key rest) = true) by (apply forallb_forall; intros x Hx; apply in_map_iff in Hx as (y & <- & _); reflexivity).
  rewrite K. cbn [map omapM]. rewrite obind_some. split.
  - intros (fs & H & E). 
    apply obind_some in H as (f1 & H1 & H). apply obind_some in H as (l1 & H & [= <-]).
    apply obind_some in H as (f2 & H2 & H). apply obind_some in H as (l2 & H & [= <-]).
    apply obind_some in H as (f3 & H3 & H). apply obind_some in H as (l3 & H & [= <-]).
    apply obind_some in H as (f4 & H4 & H). apply obind_some in H as (l4 & H & [= <-]).
    apply obind_some in H as (f5 & H5 & H). apply obind_some in H as (l5 & H & [= <-]). injection H as <-.
    apply obind_some in E as (c1 & E1 & E). apply obind_some in E as (c2 & E2 & E). apply obind_some in E as (c3 & E3 & E).
    apply obind_some in E as (c4 & E4 & E). apply obind_some in E as (c5 & E5 & [= <-]). cbn [pal_primary pal_primary_dark pal_accent pal_control_normal pal_control_highlight].
    split; [exists f1; auto|]. split; [exists f2; auto|]. split; [exists f3; auto|]. split; [exists f4; auto|exists f5; auto].
  - intros ((f1 & H1 & E1) & (f2 & H2 & E2) & (f3 & H3 & E3) & (f4 & H4 & E4) & (f5 & H5 & E5)).
    rewrite H1, H2, H3, H4, H5. cbn [obind]. eexists. split; [reflexivity|]. cbv beta iota. rewrite E1, E2, E3, E4, E5. cbn [obind]. now destruct p.
Qed.
Lemma ok_or_ok {E A} (e : E) (o : option A) x : ok_or e o = Ok x <-> o = Some x.
Proof. destruct o; cbn; split; congruence. Qed.
Definition field_val {A} (d : json -> res unit A) (kvs : list (option str * json)) (k : str) (x : A) : Prop := exists v, vals k kvs = [v] /\ d v = Ok x.
Lemma frel_start {A} (d : json -> res unit A) vs x : frel d None (Some x) vs <-> exists v, vs = [v] /\ d v = Ok x.
Proof.
  destruct vs as [|v [|w vs]]; cbn [frel]; split; try discriminate; try tauto; try (intros (? & ? & ?); discriminate).
  - intros (_ & y & H & [= ->]). eauto.
  - intros (v' & [= <-] & H). eauto.
Qed.
Definition project_meaning (kvs : list (option str * json)) (p : project) : Prop :=
  field_val (dd d_u16_text) kvs (lit "sc_id") (pj_id p) /\ field_val (dd d_str) kvs (lit "my_app_name") (pj_app_name p) /\
  field_val (dd d_str) kvs (lit "my_ws_name") (pj_workspace_name p) /\ field_val (dd d_str) kvs (lit "my_sc_pkg_name") (pj_package_name p) /\
  field_val (dd d_u16_text) kvs (lit "sc_ver_code") (pj_version_code p) /\ field_val (dd d_str) kvs (lit "sc_ver_name") (pj_version_name p) /\
  field_val d_date kvs (lit "my_sc_reg_dt") (pj_date_created p) /\ field_val (dd d_bool) kvs (lit "custom_icon") (pj_custom_icon p) /\
  field_val (dd d_u8) kvs (lit "sketchware_ver") (pj_sketchware_version p) /\
  colour_val kvs (lit "color_primary") (pal_primary (pj_palette p)) /\ colour_val kvs (lit "color_primary_dark") (pal_primary_dark (pj_palette p)) /\
  colour_val kvs (lit "color_accent") (pal_accent (pj_palette p)) /\ colour_val kvs (lit "color_control_normal") (pal_control_normal (pj_palette p)) /\
  colour_val kvs (lit "color_control_highlight") (pal_control_highlight (pj_palette p)) /\ Forall entry_ok kvs.
Lemma project_parse_ok s p : project_parse s = Ok p <-> exists j, parse_json s = Some j /\ d_project j = Ok p.
Proof.
  unfold project_parse. destruct (parse_json s) as [j|].
  - split; [eauto|]. intros (j' & [= <-] & H). exact H.
  - split; [destruct (pj_fold _ _); discriminate|]. intros (j & H & _). discriminate.
Qed.
Lemma project_parse_iff s p : project_parse s = Ok p <-> exists kvs, parse_json s = Some (JObj kvs) /\ project_meaning kvs p.
Proof.
  rewrite project_parse_ok. split.
  - intros (j & Hj & H). destruct j as [| | | | |kvs]; try discriminate. exists kvs. split; auto. cbn [d_project] in H.
    apply bind_ok in H as (st & HF & H). apply pj_fold_iff in HF.
    apply bind_ok in H as (x1 & X1 & H). apply bind_ok in H as (x2 & X2 & H). apply bind_ok in H as (x3 & X3 & H). apply bind_ok in H as (x4 & X4 & H).
    apply bind_ok in H as (x5 & X5 & H). apply bind_ok in H as (x6 & X6 & H). apply bind_ok in H as (x7 & X7 & H). apply bind_ok in H as (x8 & X8 & H).
    apply bind_ok in H as (x9 & X9 & H). apply bind_ok in H as (x10 & X10 & H).
    rewrite ok_or_ok in X1. rewrite ok_or_ok in X2. rewrite ok_or_ok in X3. rewrite ok_or_ok in X4. rewrite ok_or_ok in X5. rewrite ok_or_ok in X6. rewrite ok_or_ok in X7. rewrite ok_or_ok in X8. rewrite ok_or_ok in X9. rewrite ok_or_ok in X10.
    destruct HF as (H1 & H2 & H3 & H4 & H5 & H6 & H7 & H8 & H9 & H10 & H11).
    rewrite X1 in H1. rewrite X2 in H2. rewrite X3 in H3. rewrite X4 in H4. rewrite X5 in H5. rewrite X6 in H6. rewrite X7 in H7. rewrite X8 in H8. rewrite X9 in H9.
    cbn [pj_start ps_id ps_app ps_ws ps_pkg ps_vc ps_vn ps_date ps_icon ps_sv ps_rest app] in *. rewrite H10 in X10. apply d_palette_iff in X10. cbv zeta in X10.
    unfold colour_val in X10. rewrite !vals_other in X10 by (apply colour_not_project; cbn; auto 6).
    assert (P : p = {| pj_id := x1; pj_app_name := x2; pj_workspace_name := x3; pj_package_name := x4; pj_version_code := x5;
          pj_version_name := x6; pj_date_created := x7; pj_custom_icon := x8; pj_palette := x10; pj_sketchware_version := x9 |}) by congruence.
    subst p. unfold project_meaning, field_val, colour_val. cbn [pj_id pj_app_name pj_workspace_name pj_package_name pj_version_code pj_version_name pj_date_created pj_custom_icon pj_palette pj_sketchware_version].
    rewrite <- !frel_start. decompose [and] X10. repeat (split; [assumption|]). assumption.
  - intros (kvs & Hj & (H1 & H2 & H3 & H4 & H5 & H6 & H7 & H8 & H9 & C1 & C2 & C3 & C4 & C5 & H11)). exists (JObj kvs). split; auto. cbn [d_project].
    unfold field_val in *. apply <- @frel_start in H1. apply <- @frel_start in H2. apply <- @frel_start in H3. apply <- @frel_start in H4. apply <- @frel_start in H5. apply <- @frel_start in H6. apply <- @frel_start in H7. apply <- @frel_start in H8. apply <- @frel_start in H9.
    set (st := {| ps_id := Some (pj_id p); ps_app := Some (pj_app_name p); ps_ws := Some (pj_workspace_name p); ps_pkg := Some (pj_package_name p);
      ps_vc := Some (pj_version_code p); ps_vn := Some (pj_version_name p); ps_date := Some (pj_date_created p); ps_icon := Some (pj_custom_icon p);
      ps_sv := Some (pj_sketchware_version p); ps_rest := other kvs |}).
    assert (F : pj_fold kvs pj_start = Ok st) by (apply pj_fold_iff; unfold fold_rel; cbn [pj_start st ps_id ps_app ps_ws ps_pkg ps_vc ps_vn ps_date ps_icon ps_sv ps_rest app]; repeat (split; [first [assumption|reflexivity]|]); assumption).
    rewrite F. cbn [bind st ps_id ps_app ps_ws ps_pkg ps_vc ps_vn ps_date ps_icon ps_sv ps_rest ok_or].
    assert (P : d_palette (other kvs) = Some (pj_palette p)).
    { apply d_palette_iff. cbv zeta. unfold colour_val. rewrite !vals_other by (apply colour_not_project; cbn; auto 6). repeat (split; [assumption|]). assumption. }
    rewrite P. cbn [ok_or bind]. now destruct p.
Qed.
(** the order of the fields does not matter *)
Lemma vals_perm k kvs kvs' v : Permutation kvs kvs' -> vals k kvs = [v] -> vals k kvs' = [v].
Proof.
  intros P H. rewrite vals_filter in *. apply (Permutation_filter (fun kv => okey_eqb k (fst kv))) in P. destruct (filter _ kvs) as [|a [|b l]]; try discriminate.
  apply Permutation_length_1_inv in P. now rewrite P.
Qed.
Lemma project_meaning_perm kvs kvs' p : Permutation kvs kvs' -> project_meaning kvs p -> project_meaning kvs' p.
Proof.
  intros P. assert (F : forall A (d : json -> res unit A) k x, field_val d kvs k x -> field_val d kvs' k x) by (intros A d k x (v & H & E); exists v; split; auto; eapply vals_perm; eauto).
  assert (C : forall k c, colour_val kvs k c -> colour_val kvs' k c) by (intros k x (v & H & E); exists v; split; auto; eapply vals_perm; eauto).
  intros (H1 & H2 & H3 & H4 & H5 & H6 & H7 & H8 & H9 & C1 & C2 & C3 & C4 & C5 & H11). unfold project_meaning.
  repeat (split; [auto|]). eapply Permutation_Forall; eauto.
Qed.

(** to the specification *)
Lemma okey_eqb_eq k o : okey_eqb k o = true <-> o = Some k.
Proof. destruct o as [k'|]; cbn [okey_eqb]; [|split; discriminate]. rewrite str_eqb_eq. split; congruence. Qed.
Lemma vals_nil k kvs : vals k kvs = [] <-> ~ In (Some k) (map fst kvs).
Proof.
  induction kvs as [|[k' v] kvs IH]; cbn [vals map fst In]; [tauto|]. destruct (okey_eqb k k') eqn:E.
  - apply okey_eqb_eq in E. split; [discriminate|]. intros H. destruct H. auto.
  - rewrite IH. assert (k' <> Some k) by (intros H; apply okey_eqb_eq in H; congruence). tauto.
Qed.
Lemma vals_app k a b : vals k (a ++ b) = vals k a ++ vals k b.
Proof. induction a as [|[k' v] a IH]; cbn [vals app]; auto. destruct (okey_eqb k k'); cbn [app]; now rewrite IH. Qed.
Lemma vals_only k kvs v : vals k kvs = [v] <-> only kvs k v.
Proof.
  split.
  - induction kvs as [|[k' w] kvs IH]; [discriminate|]. cbn [vals]. destruct (okey_eqb k k') eqn:E.
    + apply okey_eqb_eq in E. intros H. injection H as -> H. apply vals_nil in H. exists [], kvs. subst k'. split; [reflexivity|exact H].
    + intros H. destruct (IH H) as (pre & post & -> & N). exists ((k', w) :: pre), post. split; auto. cbn [app map fst]. intros [H'|H']; [|auto].
      apply okey_eqb_eq in H'. congruence.
  - intros (pre & post & -> & N). rewrite map_app, in_app_iff in N.
    rewrite vals_app. cbn [vals]. assert (E : okey_eqb k (Some k) = true) by (now apply okey_eqb_eq). rewrite E.
    rewrite (proj2 (vals_nil k pre)), (proj2 (vals_nil k post)) by tauto. reflexivity.
Qed.
Lemma field_reads {A} (d : json -> option A) kvs k x : field_val (dd d) kvs (lit k) x <-> reads_as kvs k d x.
Proof. unfold field_val, reads_as, dd. setoid_rewrite vals_only. setoid_rewrite ok_or_ok. reflexivity. Qed.
Lemma colour_reads kvs k x : colour_val kvs (lit k) x <-> reads_as kvs k d_color x.
Proof. unfold colour_val, reads_as. setoid_rewrite vals_only. reflexivity. Qed.
Lemma date_reads kvs x : field_val d_date kvs (lit "my_sc_reg_dt") x <-> exists t, reads_as kvs "my_sc_reg_dt" d_str t /\ date_de t = Ok x.
Proof.
  unfold field_val, reads_as, d_date. split.
  - intros (v & H & E). apply vals_only in H. apply bind_ok in E as (t & E1 & E2). apply ok_or_ok in E1. exists t. split; [exists v|]; auto.
  - intros (t & (v & H & E1) & E2). exists v. split; [now apply vals_only|]. rewrite E1. exact E2.
Qed.
Lemma project_read_meaning kvs p : project_read kvs p <-> project_meaning kvs p.
Proof.
  unfold project_meaning. rewrite !field_reads, !colour_reads, date_reads. split.
  - intros []. repeat (split; [assumption|]). assumption.
  - intros (H1 & H2 & H3 & H4 & H5 & H6 & H7 & H8 & H9 & C1 & C2 & C3 & C4 & C5 & H11). constructor; assumption.
Qed.
Lemma project_exact s p : project_parse s = Ok p <-> exists kvs, parse_json s = Some (JObj kvs) /\ project_read kvs p.
Proof. rewrite project_parse_iff. setoid_rewrite project_read_meaning. reflexivity. Qed.
(** a field with another name changes nothing *)
Lemma project_meaning_insert pre k v post p : ~ In k project_names -> ~ In k colour_names ->
  SpecNumber.storable v -> project_meaning (pre ++ (Some k, v) :: post) p <-> project_meaning (pre ++ post) p.
Proof.
  intros N1 N2 C. assert (V : forall n, n <> k -> vals n (pre ++ (Some k, v) :: post) = vals n (pre ++ post)).
  { intros n Hn. rewrite !vals_app. cbn [vals]. destruct (okey_eqb n (Some k)) eqn:E; [|reflexivity]. apply okey_eqb_eq in E. congruence. }
  assert (P : forall n, In n project_names -> n <> k) by (intros n Hn ->; auto).
  assert (Q : forall n, In n colour_names -> n <> k) by (intros n Hn ->; auto).
  unfold project_meaning, field_val, colour_val.
  rewrite !V by (first [apply P; unfold project_names; cbn [In]; tauto | apply Q; unfold colour_names; cbn [In]; tauto]).
  rewrite !Forall_app, Forall_cons_iff. assert (E : entry_ok (Some k, v)) by (exists k; cbn [fst snd]; auto). tauto.
Qed.
