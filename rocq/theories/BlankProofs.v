(** Proofs about screens that the logic file has nothing about. *)
From Verif Require Import Base Str M_Logic M_File M_View M_Parsed A_Block A_View A_Screen A_Project SpecBlock SpecView SpecScreen SpecProject SpecSave SpecBack SpecSettle SpecResave SpecTidy ApiProjectProofs.

Lemma with_java_same s : with_java (sc_java_name s) s = s.
Proof. now destruct s. Qed.
Lemma nodup_either {A} (f g h : A -> str) l : NoDup (map f l) -> NoDup (map g l) -> (forall s t, In s l -> In t l -> f s <> g t) -> (forall s, In s l -> h s = f s \/ h s = g s) -> NoDup (map h l).
Proof.
  induction l as [|a l IH]; cbn [map]; [constructor|]. intros F G D H. apply NoDup_cons_iff in F as [F1 F]. apply NoDup_cons_iff in G as [G1 G]. constructor.
  - intros I. apply in_map_iff in I as (t & E & I). destruct (H a (or_introl eq_refl)) as [X|X], (H t (or_intror I)) as [Y|Y]; rewrite X, Y in E.
    + apply F1. rewrite <- E. now apply in_map.
    + apply (D a t); cbn; auto.
    + apply (D t a); cbn; auto.
    + apply G1. rewrite <- E. now apply in_map.
  - apply IH; auto; intros; [apply D|apply H]; cbn; auto.
Qed.

(** ** Writing *)
Definition blank_sl (j : str) : screen_logic :=
  {| sl_name := j; sl_block_containers := []; sl_variables := Some []; sl_list_variables := Some []; sl_components := Some []; sl_events := Some []; sl_more_blocks := Some [] |}.
Lemma blank_written j s : no_logic s -> screen_logic_of (with_java j s) = Ok (blank_sl j).
Proof. intros (A & B & C & D & E). unfold screen_logic_of, with_java. cbn [sc_java_name sc_variables sc_list_variables sc_components sc_more_blocks sc_events]. now rewrite A, B, C, D, E. Qed.
Lemma logic_java j s lg : screen_logic_of (with_java j s) = Ok lg -> exists lg', screen_logic_of s = Ok lg'.
Proof.
  unfold screen_logic_of, with_java. cbn [sc_java_name sc_variables sc_list_variables sc_components sc_more_blocks sc_events]. unfold to_screen_logic.
  destruct (put_events _ _) as [[es bc]| |]; cbn [bind]; try discriminate. destruct (put_more_blocks _ _) as [[ms bc']| |]; cbn [bind]; try discriminate. eauto.
Qed.
Lemma put_java (f : screen -> str) l : forall lgs lgs' lays fabs L' a b, put_screens (map (fun s => with_java (f s) s) l) lgs' lays fabs = Ok (L', a, b) -> exists L, put_screens l lgs lays fabs = Ok (L, a, b).
Proof.
  induction l as [|s l IH]; intros lgs lgs' lays fabs L' a b; cbn [map]; rewrite !put_screens_eq; [intros [= <- <- <-]; eauto|].
  destruct (screen_logic_of (with_java (f s) s)) as [lg| |] eqn:E; cbn [bind]; try discriminate. apply logic_java in E as (lg' & ->). cbn [bind]. intros H. eapply IH. exact H.
Qed.

(** ** Reading *)
Lemma from_java n j fe lay le fab s : screen_from_parsed n j fe lay le fab = Ok s -> sc_java_name s = j.
Proof.
  unfold screen_from_parsed. destruct (parse_raw_layout _) as [views| |]; cbn [map_err bind]; try discriminate.
  destruct (take_more_blocks _ _) as [[ms bc]| |]; cbn [bind]; try discriminate. destruct (take_components _) as [cs| |]; cbn [map_err bind]; try discriminate.
  destruct (take_events _ _) as [es| |]; cbn [bind]; try discriminate. now intros [= <-].
Qed.
Lemma blank_read n j fe lay fab : screen_from_parsed n n fe lay (screen_new_empty n) fab = rmap (with_java n) (screen_from_parsed n j fe lay (blank_sl j) fab).
Proof. unfold screen_from_parsed. destruct (parse_raw_layout lay); reflexivity. Qed.
(** the logic of [s] is the same in both files, or [s] is only in the second one and blank there *)
Definition either_way (lgs lgs' : logic) (s : screen) : Prop :=
  let j := view_name_to_logic (sc_layout_name s) in
  (exists lg, sget j lgs = Some lg /\ sget j lgs' = Some lg /\ sl_name lg = sc_java_name s) \/
  (sget j lgs = None /\ sc_java_name s = sc_layout_name s /\ sget j lgs' = Some (blank_sl j)).
Definition renamed (l ss : list screen) : list screen := map (fun x => with_java (sc_java_name (fst x)) (snd x)) (combine l ss).
Definition rename_result (l : list screen) (x : list screen * smap layout) : list screen * smap layout := (renamed l (fst x), snd x).
Lemma lockstep l : NoDup (map (fun s => view_name_to_logic (sc_layout_name s)) l) -> forall lays lgs lgs' fabs, Forall (either_way lgs lgs') l ->
  take_screens (map activity_of l) lays lgs fabs = rmap (rename_result l) (take_screens (map activity_of l) lays lgs' fabs).
Proof.
  induction l as [|s l IH]; intros ND lays lgs lgs' fabs F; [reflexivity|]. cbn [map] in *. apply NoDup_cons_iff in ND as [N1 ND]. apply Forall_cons_iff in F as [Fs F]. cbn [take_screens]. cbv zeta.
  change (fi_filename (activity_of s)) with (sc_layout_name s). unfold either_way in Fs. cbv zeta in Fs. set (n := sc_layout_name s) in *. set (j := view_name_to_logic n) in *.
  assert (F' : Forall (either_way (sremove j lgs) (sremove j lgs')) l).
  { rewrite Forall_forall in *. intros t I. specialize (F t I). unfold either_way in *. cbv zeta in *. assert (view_name_to_logic (sc_layout_name t) <> j) as X.
    { intros E. apply N1. rewrite <- E. apply (in_map (fun s => view_name_to_logic (sc_layout_name s))). exact I. }
    now rewrite !sget_remove_other by exact X. }
  specialize (IH ND (sremove n lays) (sremove j lgs) (sremove j lgs') (sremove n fabs) F').
  destruct Fs as [(lg & G1 & G2 & E)|(G1 & E & G2)]; rewrite G1, G2.
  - destruct (screen_from_parsed _ _ _ _ _ _) as [t| |] eqn:P; cbn [map_err bind rmap]; try reflexivity. rewrite IH. destruct (take_screens _ _ (sremove j lgs') _) as [[ss y]| |]; cbn [bind rmap]; try reflexivity.
    unfold rename_result, renamed. cbn [fst snd combine map]. apply from_java in P. rewrite <- E, <- P, with_java_same. reflexivity.
  - cbn [screen_new_empty blank_sl sl_name]. fold (blank_sl j). fold (screen_new_empty n). rewrite (blank_read n j). destruct (screen_from_parsed _ _ _ _ (blank_sl j) _) as [t| |] eqn:P; cbn [map_err bind rmap]; try reflexivity.
    rewrite IH. destruct (take_screens _ _ (sremove j lgs') _) as [[ss y]| |]; cbn [bind rmap]; try reflexivity. unfold rename_result, renamed. cbn [fst snd combine map]. now rewrite E.
Qed.
