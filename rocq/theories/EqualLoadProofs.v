(** Proofs about the numbers in what has been loaded. *)
From Coq Require Import Permutation.
From Verif Require Import Base Str Flt Json Recs M_File M_Library M_Resource M_View M_Logic M_Raw M_Project M_Parsed A_Block A_View A_Screen A_Project
  SpecBlock SpecView SpecScreen SpecProject SpecResave SpecSettle BlockContentProofs BlockWriteProofs ViewTreeProofs ViewFlatProofs SaveProofs ResaveProofs P_ApiView P_Save A_Equal SpecEqual EqualProofs.

(** ** Maps *)
Section Maps.
  Context {V : Type} (P : V -> Prop).
  Local Notation map_all := (map_all P).
  Lemma map_get k m v : map_all m -> sget k m = Some v -> P v.
  Proof. unfold sget. induction m as [|[k' w] m IH]; cbn [lget]; [discriminate|]. intros H. apply Forall_cons_iff in H as [H1 H]. destruct (str_eqb k k'); [intros [= <-]; exact H1|auto]. Qed.
  Lemma map_remove k m : map_all m -> map_all (sremove k m).
  Proof. unfold sremove, map_all. induction 1 as [|[k' w] m H1 _ IH]; cbn [lremove]; [constructor|]. destruct (str_eqb k k'); [exact IH|now constructor]. Qed.
  Lemma map_insert k v m : map_all m -> P v -> map_all (sinsert k v m).
  Proof. intros H Hv. unfold sinsert, linsert, map_all. apply Forall_app. split; [now apply map_remove|]. constructor; [exact Hv|constructor]. Qed.
End Maps.
(** ** View files *)
Lemma line_numbers s v : view_line_parse s = Some v -> view_numbers v.
Proof. unfold view_line_parse, from_str. intros H. repeat match type of H with match ?x with _ => _ end = Some _ => destruct x; try discriminate H | obind ?x _ = Some _ => destruct x; cbn [obind] in H; try discriminate H end; eapply d_view_numbers; eauto. Qed.
Lemma layout_numbers lines : forall acc c l r c', Forall view_numbers acc -> layout_parse_iter lines acc c = Ok (l, r, c') -> Forall view_numbers l.
Proof.
  induction lines as [|s lines IH]; intros acc c l r c' A; cbn [layout_parse_iter]; [intros [= <- _ _]; exact A|]. destruct s as [|x s]; [intros [= <- _ _]; exact A|].
  destruct (view_line_parse (x :: s)) as [v|] eqn:E; [|discriminate]. apply IH. apply Forall_app. split; [exact A|]. constructor; [eapply line_numbers; eauto|constructor].
Qed.
Lemma loop_numbers fuel : forall lines acc n v, view_file_numbers acc -> view_loop fuel lines acc n = Ok v -> view_file_numbers v.
Proof.
  induction fuel as [|k IH]; intros lines acc n v A; cbn [view_loop]; [discriminate|]. destruct lines as [|l r]; [intros [= <-]; exact A|]. cbv zeta.
  destruct (negb _); [intros [= <-]; exact A|]. destruct (unwrap _) as [rest| |]; cbn [bind]; try discriminate. destruct (split_once _ rest) as [[name kind]|]; [|discriminate].
  destruct (str_eqb kind (lit "xml")).
  { destruct (layout_parse_iter r [] 0) as [[[lay r'] c]| |] eqn:E; try discriminate. apply IH. destruct A as [A1 A2]. split; [|exact A2]. cbn [vw_layouts]. apply map_insert; [exact A1|]. eapply layout_numbers; [constructor|eauto]. }
  destruct (str_eqb kind (lit "xml_fab")); [|now apply IH]. destruct r as [|f r]; [discriminate|]. destruct (view_line_parse f) as [w|] eqn:E; [|discriminate].
  apply IH. destruct A as [A1 A2]. split; [exact A1|]. cbn [vw_fabs]. apply map_insert; [exact A2|]. eapply line_numbers; eauto.
Qed.
Lemma file_numbers s v : view_parse s = Ok v -> view_file_numbers v.
Proof. apply loop_numbers. split; constructor. Qed.
Lemma file_norm v : norm_at view_file_same file_positive view_file_numbers v.
Proof.
  intros w. unfold view_file_same, layout_same.
  rewrite (list_norm _ _ _ _ (all_norm _ _ _ (fun x => entry_norm _ _ _ x (list_norm _ _ _ _ (all_norm _ _ _ view_norm (snd x)))) _) _).
  rewrite (list_norm _ _ _ _ (all_norm _ _ _ (fun x => entry_norm _ _ _ x (view_norm (snd x))) _) _). unfold view_file_numbers, map_all, file_positive. split.
  - intros ((H1 & E1) & H2 & E2). split; [auto|]. f_equal; assumption.
  - intros ((H1 & H2) & E). pose proof (f_equal vw_layouts E) as E1. pose proof (f_equal vw_fabs E) as E2. auto.
Qed.

(** ** The conversion *)
Lemma nodes_numbers v : Forall view_numbers (map vn_raw (nodes v)) -> aview_numbers v.
Proof.
  induction v as [n ch IH] using aview_induct. rewrite nodes_eq, aview_numbers_eq. cbn [map]. intros H. apply Forall_cons_iff in H as [H1 H]. split; [exact H1|].
  clear H1. induction ch as [|c ch IHc]; [constructor|]. apply Forall_cons_iff in IH as [I1 IH]. cbn [flat_map] in H. rewrite map_app, Forall_app in H. destruct H as [H1 H2]. constructor; auto.
Qed.
Lemma tree_numbers l F : Forall view_numbers l -> parse_raw_layout l = Ok F -> Forall aview_numbers F.
Proof.
  intros H E. apply C38_no_loss in E. apply Permutation_sym in E. apply (Permutation_Forall E) in H. clear E. induction F as [|v F IH]; [constructor|]. cbn [flat_map] in H. rewrite map_app, Forall_app in H. destruct H as [H1 H2].
  constructor; [now apply nodes_numbers|auto].
Qed.
Lemma wo_numbers spec is : @parse_wo_params ablock spec = Ok is -> spec_numbers is.
Proof.
  intros H. apply parsed_spec in H as [_ H]. split; [|apply items_forall]; (eapply Forall_impl; [|exact H]); intros [t|[n v|n v|n v|n v]]; cbn [plain_item item_number item_all]; try tauto; intros [_ K]; cbn [is_empty] in K; subst v; exact Logic.I.
Qed.
Definition spec_clean (s : screen) : Prop := Forall aview_numbers (sc_layout s) /\ Forall (fun kv => spec_numbers (am_spec (snd kv))) (sc_more_blocks s) /\ (forall v, sc_fab s = Some v -> aview_numbers v).
Lemma clean_numbers s : spec_clean s -> (screen_numbers s <-> code_numbers s).
Proof.
  intros (H1 & H2 & H3). unfold screen_numbers, code_numbers, screen_codes. rewrite Forall_app, !Forall_map. rewrite !Forall_forall in *. split.
  - intros (_ & K1 & K2 & _). split; intros x I; [auto|]. now destruct (K1 x I).
  - intros (K1 & K2). split; [exact H1|]. split; [|split; [exact K1|exact H3]]. intros kv I. split; auto.
Qed.
Lemma more_numbers l : forall bc ms bc', take_more_blocks l bc = Ok (ms, bc') -> Forall (fun kv => spec_numbers (am_spec (snd kv))) ms.
Proof.
  induction l as [|[id mb] l IH]; intros bc ms bc'; cbn [take_more_blocks]; [intros [= <- _]; constructor|].
  destruct (parse_wo_params (mb_spec mb)) as [sp| |] eqn:P; cbn [map_err bind]; try discriminate. unfold take_container.
  destruct (blocks_try_from _) as [code| |] eqn:B; cbn [map_err bind]; try discriminate. destruct (take_more_blocks l _) as [[ms' bc2]| |] eqn:T; cbn [bind]; try discriminate.
  intros [= <- _]. constructor; [|eauto]. cbn [snd am_spec]. now apply (wo_numbers (mb_spec mb)).
Qed.
Lemma from_parsed_numbers ln jn fe ve le fab s : Forall view_numbers ve -> (forall v, fab = Some v -> aview_numbers v) -> screen_from_parsed ln jn fe ve le fab = Ok s -> spec_clean s.
Proof.
  intros V F. unfold screen_from_parsed. destruct (parse_raw_layout ve) as [views| |] eqn:L; cbn [map_err bind]; try discriminate.
  destruct (take_more_blocks _ _) as [[ms bc]| |] eqn:TM; cbn [bind]; try discriminate. destruct (take_components _) as [cs| |]; cbn [map_err bind]; try discriminate.
  destruct (take_events _ _) as [es| |] eqn:TE; cbn [bind]; try discriminate. intros [= <-]. unfold spec_clean. cbn [sc_layout sc_more_blocks sc_fab].
  split; [eapply tree_numbers; eauto|]. split; [|exact F]. apply more_numbers in TM. rewrite Forall_forall in *. intros kv K. apply in_scollect in K. auto.
Qed.
Lemma or_numbers (o : option (list android_view)) : (forall x, o = Some x -> Forall view_numbers x) -> Forall view_numbers (A_Screen.or_empty o).
Proof. destruct o; cbn [A_Screen.or_empty]; [auto|constructor]. Qed.
Lemma screens_numbers l : forall lays lgs fabs ss lays', map_all (Forall view_numbers) lays -> map_all view_numbers fabs -> take_screens l lays lgs fabs = Ok (ss, lays') ->
  Forall spec_clean ss /\ map_all (Forall view_numbers) lays'.
Proof.
  induction l as [|fe l IH]; intros lays lgs fabs ss lays' L F; cbn [take_screens]; [intros [= <- <-]; split; [constructor|exact L]|]. cbv zeta.
  destruct (screen_from_parsed _ _ _ _ _ _) as [s| |] eqn:S; cbn [map_err bind]; try discriminate. destruct (take_screens l _ _ _) as [[ss' lays2]| |] eqn:T; cbn [bind]; try discriminate.
  intros [= <- <-]. destruct (IH _ _ _ _ _ (map_remove _ _ _ L) (map_remove _ _ _ F) T) as [I1 I2]. split; [|exact I2]. constructor; [|exact I1]. eapply from_parsed_numbers; [| |exact S].
  - apply or_numbers. intros x G. exact (map_get (Forall view_numbers) _ _ _ L G).
  - intros v. destruct (sget (fi_filename fe) fabs) as [x|] eqn:G; cbn [option_map]; [|discriminate]. intros [= <-]. unfold view_from. apply aview_numbers_eq. split; [exact (map_get view_numbers _ _ _ F G)|constructor].
Qed.
Lemma customs_numbers l : forall (lays : smap layout) cs, map_all (Forall view_numbers) lays -> take_custom_views l lays = Ok cs -> Forall (fun c => Forall aview_numbers (cv_layout c)) cs.
Proof.
  induction l as [|fe l IH]; intros lays cs L; cbn [take_custom_views]; [intros [= <-]; constructor|]. cbv zeta. destruct (sget (fi_filename fe) lays) as [lay|] eqn:G; cbn [ok_or bind]; [|discriminate].
  destruct (parse_raw_layout lay) as [views| |] eqn:P; cbn [map_err bind]; try discriminate. destruct (take_custom_views l _) as [cs'| |] eqn:T; cbn [bind]; try discriminate. intros [= <-].
  constructor; [cbn [cv_layout]; eapply tree_numbers; [exact (map_get (Forall view_numbers) _ _ _ L G)|eauto]|]. eapply IH; [|exact T]. now apply map_remove.
Qed.
Lemma converted_numbers rnd v p : view_file_numbers (pp_view v) -> project_try_from rnd v = Ok p -> (project_numbers p <-> Forall code_numbers (sp_screens p)).
Proof.
  intros (L & F). unfold project_try_from. cbv zeta. destruct (take_screens _ _ _ _) as [[ss lays]| |] eqn:T; cbn [bind]; try discriminate.
  destruct (take_custom_views _ _) as [cs| |] eqn:C; cbn [bind]; try discriminate. intros H.
  repeat match type of H with context [bind ?x _] => destruct x; cbn [bind] in H; try discriminate H end.
  injection H as <-. unfold project_numbers. cbn [sp_screens sp_custom_views]. destruct (screens_numbers _ _ _ _ _ _ L F T) as [S L']. pose proof (customs_numbers _ _ _ L' C) as CN.
  rewrite !Forall_forall in *. split.
  - intros [K _] s I. apply clean_numbers; auto.
  - intros K. split; [|exact CN]. intros s I. apply clean_numbers; auto.
Qed.
Lemma loaded_numbers mv ex rnd r p : loaded mv ex rnd r p -> (project_numbers p <-> Forall code_numbers (sp_screens p)).
Proof.
  intros (v & P & T). eapply converted_numbers; [|exact T]. unfold parse_from in P.
  destruct (project_parse _); cbn [map_err bind] in P; try discriminate P. destruct (file_parse _); cbn [map_err bind] in P; try discriminate P. destruct (library_parse _); cbn [map_err bind] in P; try discriminate P.
  destruct (resource_parse _); cbn [map_err bind] in P; try discriminate P. destruct (view_parse _) as [w| |] eqn:W; cbn [map_err bind] in P; try discriminate P.
  destruct (logic_parse _ _); cbn [map_err bind] in P; try discriminate P. match type of P with context [map_err PeResourceFiles ?x] => destruct x; cbn [map_err bind] in P; try discriminate P end.
  injection P as <-. cbn [pp_view]. eapply file_numbers; eauto.
Qed.
