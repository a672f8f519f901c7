(** Proofs about projects with automatic resources that are saved and loaded: the icon is the only file (mod.rs L503-521,
    L659-773, parser/mod.rs L364-456). *)
From Coq Require Import Lia Permutation.
From Verif Require Import Base Str M_Color M_Date M_Raw M_Project M_File M_Library M_Resource M_View M_Logic M_Parsed A_Block A_View A_Screen A_Project
  SpecBlock SpecView SpecScreen SpecProject SpecLoad SpecSave ViewTreeProofs ViewFlatProofs ScreenProofs ApiProjectProofs LibraryProofs ResFilesProofs DateProofs ProjectProofs
  P_Files P_Project P_View P_Logic P_Parsed P_ApiView P_Screen P_ApiProject P_Loading SaveProofs RemainProofs.

Lemma put_items auto l f is f' : put_resources auto l f = Ok (is, f') ->
  (is = [] <-> l = []) /\ (forall it, is = [it] -> exists w, l = [(ri_name it, w)] /\ full_name w (ri_full_name it)) /\
  (forall id w, l = [(id, w)] -> exists it, is = [it] /\ ri_name it = id /\ full_name w (ri_full_name it)).
Proof.
  intros H. split; [exact (no_items _ _ _ _ _ H)|]. apply put_resources_iff in H as (ns & F & -> & _). split.
  - intros it E. destruct l as [|[k w] [|[k2 w2] l]]; cbn [map snd] in F; [discriminate E| |].
    + inversion F as [|x y u v X Y]; subst. inversion Y; subst. injection E as <-. exists w. auto.
    + inversion F as [|x y u v X Y]; subst. inversion Y; subst. discriminate E.
  - intros id w ->. cbn [map snd] in F. inversion F as [|x y u v X Y]; subst. inversion Y; subst. cbn. eauto.
Qed.
Lemma icon_outcome_fun ex i r i1 r1 i2 r2 : icon_outcome ex i r i1 r1 -> icon_outcome ex i r i2 r2 -> i1 = i2 /\ r1 = r2.
Proof.
  intros A B. destruct A; inversion B; subst; auto;
    repeat match goal with
    | C : wrapper_class ?e ?w ?t ?n, D : wrapper_class ?e ?w ?t' ?n' |- _ => destruct (wrapper_class_fun _ _ _ _ _ _ C D); subst; clear D
    end; try contradiction; auto.
  all: unfold only_resource, resources_empty in *; repeat match goal with t : res_type |- _ => destruct t end; try contradiction; try discriminate; split; congruence.
Qed.
Lemma icon_read mv ex rnd p q dt r t : ready_project p -> sp_automatic p = true -> project_fits p dt -> project_into p = Ok q -> into_raw q r ->
  date_de (date_text dt) = @Ok unit N t -> (forall a l m b, all_layouts p = a ++ l :: m :: b -> l = []) ->
  (forall w, sp_custom_icon p = Some w -> (forall ty n, ~ wrapper_class ex w ty n) -> exists e, parse_from mv ex r = Err (PeResourceFiles e)) /\
  ((forall w, sp_custom_icon p = Some w -> exists ty n, wrapper_class ex w ty n) -> exists v, parse_from mv ex r = Ok v /\
    match project_try_from rnd v with
    | Ok p' => same_project (remains (created_at t p)) p' /\ icon_outcome ex (sp_custom_icon p) (sp_resources p) (sp_custom_icon p') (sp_resources p')
    | Err e => (exists id n ty, e = XMissingResourceFile id n ty) /\ forall i rs, ~ icon_outcome ex (sp_custom_icon p) (sp_resources p) i rs
    | Panic => False
    end).
Proof.
  intros RP A PF H W TD SL. destruct (remains_parts mv p q dt r t RP PF H W TD SL) as (fl & fabs & g & ss & ls2 & cv & (Q1 & Q2 & Q3 & Q4 & Q5 & Q6) & TS & TC & SC & SCV).
  pose proof H as H0. apply into_inv in H0 as (lays & imf & sof & fof & _ & R1 & R2 & R3 & _ & _ & _ & _ & _ & RF). rewrite A in RF, R1, R2, R3.
  assert (imf = []) as -> by (apply put_resources_iff in R1 as (? & _ & _ & ->); reflexivity).
  assert (sof = []) as -> by (apply put_resources_iff in R2 as (? & _ & _ & ->); reflexivity).
  assert (fof = []) as -> by (apply put_resources_iff in R3 as (? & _ & _ & ->); reflexivity).
  assert (WS : rp_resource_files r = Some (match sp_custom_icon p with Some w => [w] | None => [] end)).
  { destruct W as [_ W]. rewrite RF in W. destruct W as (ws & E & im & so & fo & P1 & P2 & P3 & EW). rewrite E. cbn [rf_images rf_sounds rf_fonts rf_custom_icon map] in *.
    apply Permutation_sym, Permutation_nil in P1, P2, P3. subst im so fo. rewrite EW. now rewrite !app_nil_r. }
  split.
  - intros w E N. rewrite E in WS. unfold parse_from. rewrite Q1, Q2, Q3, Q4, Q5, Q6, WS. cbn [map_err bind].
    destruct (res_files_try_from ex [w]) as [f|e|] eqn:F; cbn [map_err bind].
    + exfalso. pose proof (proj1 (rf_collect_defined ex [w] res_files_default) (ex_intro _ f F)) as D. apply Forall_inv in D as (ty & n & C). exact (N ty n C).
    + cbn. eauto.
    + exfalso. exact (rf_collect_nopanic _ _ _ F).
  - intros NW.
    assert (FE : exists f, res_files_try_from ex (match sp_custom_icon p with Some w => [w] | None => [] end) = Ok f /\
              match sp_custom_icon p with Some w => exists ty n, wrapper_class ex w ty n /\ f = rf_put ty n w res_files_default | None => f = res_files_default end).
    { destruct (sp_custom_icon p) as [w|]; [|exists res_files_default; auto]. destruct (NW w eq_refl) as (ty & n & C).
      exists (rf_put ty n w res_files_default). split; [|eauto]. unfold res_files_try_from. cbn [rf_collect].
      assert (rf_step ex res_files_default w = Ok (rf_put ty n w res_files_default)) as -> by (apply rf_step_ok; eauto). reflexivity. }
    destruct FE as (f & FT & FE). exists (read_parts t q fl fabs g (Some f)). split.
    { apply parse_from_ok. repeat (split; [assumption|]). rewrite WS. exists f. auto. }
    destruct (library_back 0 p q H) as (F1 & F2 & F3 & F4 & _).
    assert (FM : forall m, In m [rf_images f; rf_sounds f; rf_fonts f] -> m = [] \/ exists n w, m = [(n, w)]).
    { destruct (sp_custom_icon p) as [w|]; [destruct FE as (ty & n & _ & ->); destruct ty| rewrite FE]; intros m [<-|[<-|[<-|[]]]]; cbn; auto; right; exists n, w; reflexivity. }
    pose proof (take_few RImage (rnd RImage) (rs_images (pp_resource q)) _ (FM _ (or_introl eq_refl))) as X1.
    pose proof (take_few RSound (rnd RSound) (rs_sounds (pp_resource q)) _ (FM _ (or_intror (or_introl eq_refl)))) as X2.
    pose proof (take_few RFont (rnd RFont) (rs_fonts (pp_resource q)) _ (FM _ (or_intror (or_intror (or_introl eq_refl))))) as X3.
    pose proof (fun p' => remains_meta rnd p q t fl fabs g (Some f) p' H) as MT.
    unfold project_try_from in *. cbv zeta in *. cbn [read_parts pp_project pp_file pp_library pp_resource pp_view pp_logic pp_resource_files vw_layouts vw_fabs option_map] in *.
    rewrite TS in *. cbn [bind] in *. rewrite TC in *. cbn [bind] in *. rewrite F1 in *. cbn [bind] in *. rewrite F2 in *. cbn [bind] in *. rewrite F3 in *. cbn [bind] in *.
    destruct (put_items _ _ _ _ _ R1) as (I1 & J1 & L1). destruct (put_items _ _ _ _ _ R2) as (I2 & J2 & L2). destruct (put_items _ _ _ _ _ R3) as (I3 & J3 & L3).
    assert (RE : sp_resources p = {| re_images := re_images (sp_resources p); re_sounds := re_sounds (sp_resources p); re_fonts := re_fonts (sp_resources p) |}) by (destruct (sp_resources p); reflexivity).
    assert (OUT : forall i rs, icon_outcome ex (sp_custom_icon p) (sp_resources p) i rs ->
       (forall items files, In (items, files) [(rs_images (pp_resource q), rf_images f); (rs_sounds (pp_resource q), rf_sounds f); (rs_fonts (pp_resource q), rf_fonts f)] ->
          items = [] \/ exists n w it, files = [(n, w)] /\ items = [it] /\ ri_full_name it = n)).
    { intros i rs O. remember (sp_custom_icon p) as ic eqn:EI. remember (sp_resources p) as re eqn:ER.
      assert (Z : re = resources_empty -> rs_images (pp_resource q) = [] /\ rs_sounds (pp_resource q) = [] /\ rs_fonts (pp_resource q) = []).
      { intros ->. cbn [resources_empty re_images re_sounds re_fonts] in *. split; [|split]; [apply I1|apply I2|apply I3]; reflexivity. }
      destruct O as [|w n C|w ty n T C|w ty n id w' T C FN]; [destruct (Z eq_refl) as (Z1 & Z2 & Z3); rewrite Z1, Z2, Z3; intros items files [[= <- <-]|[[= <- <-]|[[= <- <-]|[]]]]; auto..|].
      destruct FE as (ty' & n' & C' & ->). destruct (wrapper_class_fun _ _ _ _ _ _ C C') as [<- <-]. clear Z RE.
      destruct ty; [| | |contradiction]; cbn [only_resource re_images re_sounds re_fonts] in *.
      - destruct (L1 _ _ eq_refl) as (it & E & _ & G). unfold full_name in *. rewrite FN in G. injection G as G. rewrite (proj2 I2 eq_refl), (proj2 I3 eq_refl), E.
        intros items files [[= <- <-]|[[= <- <-]|[[= <- <-]|[]]]]; auto. right. exists n, w, it. auto.
      - destruct (L2 _ _ eq_refl) as (it & E & _ & G). unfold full_name in *. rewrite FN in G. injection G as G. rewrite (proj2 I1 eq_refl), (proj2 I3 eq_refl), E.
        intros items files [[= <- <-]|[[= <- <-]|[[= <- <-]|[]]]]; auto. right. exists n, w, it. auto.
      - destruct (L3 _ _ eq_refl) as (it & E & _ & G). unfold full_name in *. rewrite FN in G. injection G as G. rewrite (proj2 I1 eq_refl), (proj2 I2 eq_refl), E.
        intros items files [[= <- <-]|[[= <- <-]|[[= <- <-]|[]]]]; auto. right. exists n, w, it. auto. }
    destruct (take_resources RImage (rnd RImage) 0 (rs_images (pp_resource q)) (Some (rf_images f))) as [im|e|]; cbn [bind] in *; [| |contradiction].
    2:{ destruct X1 as (Y1 & Y2 & id & n & ->). split; [eauto|]. intros i rs O. destruct (OUT i rs O _ _ (or_introl eq_refl)) as [Y|(n' & w' & it & G1 & G2 & G3)]; [contradiction|]. exact (Y2 _ _ _ G1 G2 G3). }
    destruct (take_resources RSound (rnd RSound) 0 (rs_sounds (pp_resource q)) (Some (rf_sounds f))) as [so|e|]; cbn [bind] in *; [| |contradiction].
    2:{ destruct X2 as (Y1 & Y2 & id & n & ->). split; [eauto|]. intros i rs O. destruct (OUT i rs O _ _ (or_intror (or_introl eq_refl))) as [Y|(n' & w' & it & G1 & G2 & G3)]; [contradiction|]. exact (Y2 _ _ _ G1 G2 G3). }
    destruct (take_resources RFont (rnd RFont) 0 (rs_fonts (pp_resource q)) (Some (rf_fonts f))) as [fo|e|]; cbn [bind] in *; [| |contradiction].
    2:{ destruct X3 as (Y1 & Y2 & id & n & ->). split; [eauto|]. intros i rs O. destruct (OUT i rs O _ _ (or_intror (or_intror (or_introl eq_refl)))) as [Y|(n' & w' & it & G1 & G2 & G3)]; [contradiction|]. exact (Y2 _ _ _ G1 G2 G3). }
    clear OUT. destruct (MT _ eq_refl) as [M4 M5]. split.
    { split; [exact M4|]. split; [exact M5|]. cbn [sp_libraries sp_screens sp_custom_views remains created_at]. split; [|split; [exact SC|exact SCV]]. rewrite F4. destruct (sp_libraries p); reflexivity. }
    cbn [sp_custom_icon sp_resources]. clear MT M4 M5. rewrite RE.
    assert (SN : forall k (w : res_wrapper), scollect [(k, w)] = [(k, w)]) by reflexivity.
    destruct X1 as [[E1 ->]|(n1 & w1 & it1 & G1 & E1 & N1 & ->)]; destruct X2 as [[E2 ->]|(n2 & w2 & it2 & G2 & E2 & N2 & ->)]; destruct X3 as [[E3 ->]|(n3 & w3 & it3 & G3 & E3 & N3 & ->)];
      rewrite ?SN; destruct (sp_custom_icon p) as [w|];
      first [rewrite FE in *; try discriminate | destruct FE as (ty & n & C & ->); destruct ty; try discriminate].
    all: cbn [rf_put rf_images rf_sounds rf_fonts rf_custom_icon res_files_default] in *.
    all: repeat match goal with
      | E : rs_images _ = [] |- _ => apply I1 in E; rewrite E
      | E : rs_sounds _ = [] |- _ => apply I2 in E; rewrite E
      | E : rs_fonts _ = [] |- _ => apply I3 in E; rewrite E
      end.
    all: try (first [constructor 1 | constructor 2 with (n := n); assumption | econstructor 3; [|exact C]; discriminate]).
    + destruct (J3 _ E3) as (w' & -> & FN). injection G3 as -> ->. eapply (io_taken ex w3 RFont n3 _ w'); [discriminate|exact C|now rewrite N3 in FN].
    + destruct (J2 _ E2) as (w' & -> & FN). injection G2 as -> ->. eapply (io_taken ex w2 RSound n2 _ w'); [discriminate|exact C|now rewrite N2 in FN].
    + destruct (J1 _ E1) as (w' & -> & FN). injection G1 as -> ->. eapply (io_taken ex w1 RImage n1 _ w'); [discriminate|exact C|now rewrite N1 in FN].
Qed.
