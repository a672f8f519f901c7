(** The [view] data file: exactly which views survive writing and reading. *)
From Verif Require Import Base Str Dec Flt FltProofs Json JsonProofs Recs RecsProofs LinesProofs FileProofs M_Color ColorProofs M_View ViewProofs.

Definition view_good (x : android_view) : Prop := view_ok x /\ Forall (fun f => canonical F32 f = true) (view_f32 x).
Lemma view_line_rt x : view_good x -> view_line_parse (view_line_reconstruct x) = Some x.
Proof. intros [H C]. apply from_to; [now apply e_view_wf|now apply d_view_e]. Qed.
Lemma view_line_clean x : Forall (fun f => canonical F32 f = true) (view_f32 x) -> clean_line (view_line_reconstruct x).
Proof. intros C. eapply to_string_clean; [reflexivity|now apply e_view_wf]. Qed.
Lemma view_good_clean x : view_good x -> clean_line (view_line_reconstruct x).
Proof. intros [_ C]. now apply view_line_clean. Qed.
(** a line that starts with '@' is not JSON *)
Lemma view_line_parse_at t : view_line_parse (AT :: t) = None.
Proof. unfold view_line_parse, from_str, parse_json. destruct (2 * length (AT :: t) + 2)%nat eqn:E; [reflexivity|]. rewrite pval_S. reflexivity. Qed.

Lemma NoDup_app_l {A} (a b : list A) : NoDup (a ++ b) -> NoDup a.
Proof.
  induction a as [|x a IH]; cbn; intros H; [constructor|]. inversion H as [|? ? H1 H2]; subst. constructor; auto.
  intros Hi. apply H1. apply in_or_app. auto.
Qed.
(** ** trailing blank lines *)
Definition line_edge (l : str) : Prop := l = [] \/ (l <> [] /\ is_ws (last l 0) = false).
Lemma join_app_nl ls : ls <> [] -> join NL (ls ++ [[]]) = join NL ls ++ [NL].
Proof. intros H. rewrite join_app by (auto; discriminate). reflexivity. Qed.
Lemma trim_lines ls : Forall line_edge ls -> exists ls' k, ls = ls' ++ repeat [] k /\ trim_end (join NL ls) = join NL ls' /\
  (ls' = [] \/ last ls' [] <> []).
Proof.
  induction ls as [|l ls IH] using rev_ind; intros H; [exists [], 0%nat; auto|].
  apply Forall_app in H as [H1 H2]. inversion H2 as [|? ? Hl _]; subst. destruct Hl as [->|[Hn Hl]].
  - destruct (IH H1) as (ls' & k & E & T & L). exists ls', (S k). split; [|split; auto].
    + rewrite E, <- app_assoc. f_equal. change [[]] with (repeat (@nil N) 1). rewrite <- repeat_app. f_equal. lia.
    + destruct ls as [|a ls].
      * destruct ls' as [|x ls']; [reflexivity|discriminate E].
      * rewrite join_app_nl by discriminate. rewrite trim_end_snoc_ws by reflexivity. exact T.
  - exists (ls ++ [l]), 0%nat. split; [now rewrite app_nil_r|].
    split; [|right; now rewrite last_last].
    apply trim_end_nonws. destruct ls as [|a ls]; [exact Hl|]. rewrite join_app by discriminate. cbn [join].
    rewrite last_app_ne by discriminate. change (NL :: l) with ([NL] ++ l). now rewrite last_app_ne.
Qed.
Lemma repeat_nil_in (x : str) X Y ls' k : x <> [] -> X ++ x :: Y = ls' ++ repeat [] k -> exists Y', ls' = X ++ x :: Y' /\ Y = Y' ++ repeat [] k.
Proof.
  revert ls'; induction X as [|a X IH]; intros ls' Hx E.
  - destruct ls' as [|b ls']; cbn [app] in E.
    + destruct k; cbn in E; [discriminate|]. injection E as E _. congruence.
    + injection E as <- E. exists ls'. auto.
  - destruct ls' as [|b ls']; cbn [app] in E.
    + exfalso. assert (In x (repeat [] k)) as Hi by (rewrite <- E; right; apply in_or_app; right; left; auto).
      apply repeat_spec in Hi. congruence.
    + injection E as <- E. destruct (IH ls' Hx E) as (Y' & -> & EY). exists Y'. auto.
Qed.

(** ** the lines of a written view *)
Definition xml_header (n : str) : str := [AT] ++ n ++ lit ".xml".
Definition fab_header (n : str) : str := [AT] ++ n ++ lit ".xml_fab".
Definition layout_lines (l : layout) : list str := lines_of (map view_line_reconstruct l).
Definition sec_lines (kv : str * layout) : list str := xml_header (fst kv) :: layout_lines (snd kv).
Definition fab_lines (kv : str * android_view) : list str := [fab_header (fst kv); view_line_reconstruct (snd kv)].
Definition all_lines (v : view) : list str :=
  concat (map sec_lines (vw_layouts v)) ++ [] :: concat (map fab_lines (vw_fabs v)) ++ [[]].
Definition name_ok (n : str) : Prop := ~ In NL n /\ ~ In 46 n.
Definition view_file_ok (v : view) : Prop :=
  Forall (fun kv => name_ok (fst kv) /\ Forall view_good (snd kv)) (vw_layouts v) /\
  Forall (fun kv => name_ok (fst kv) /\ view_good (snd kv)) (vw_fabs v) /\
  NoDup (map fst (vw_layouts v)) /\ NoDup (map fst (vw_fabs v)).
Lemma layout_reconstruct_join l : Forall view_good l -> layout_reconstruct l = join NL (layout_lines l).
Proof.
  intros H. unfold layout_reconstruct, layout_lines. rewrite join_lines_of. apply trim_fold_post.
  eapply Forall_impl; [|exact H]. apply view_good_clean.
Qed.
Lemma join_concat_nl (secs : list (list str)) rest : rest <> [] -> Forall (fun s => s <> []) secs ->
  concat (map (fun s => join NL s ++ [NL]) secs) ++ join NL rest = join NL (concat secs ++ rest).
Proof.
  intros Hr H. induction H as [|s secs Hs H IH]; [reflexivity|]. cbn [map concat]. rewrite <- !app_assoc. rewrite IH.
  cbn [app]. symmetry. apply join_app; auto. intros E. apply app_eq_nil in E as [_ E]. congruence.
Qed.
Lemma sec_text kv : Forall view_good (snd kv) ->
  [AT] ++ fst kv ++ lit ".xml" ++ [NL] ++ layout_reconstruct (snd kv) ++ [NL] = join NL (sec_lines kv) ++ [NL].
Proof.
  intros H. unfold sec_lines, xml_header. rewrite layout_reconstruct_join by auto. rewrite <- join_nil_sep by apply lines_of_ne.
  rewrite <- !app_assoc. reflexivity.
Qed.
Lemma view_text v : view_file_ok v -> view_reconstruct v = trim_end (join NL (all_lines v)).
Proof.
  intros (H1 & H2 & _). unfold view_reconstruct, all_lines. f_equal.
  assert (A : concat (map (fun kv => [AT] ++ fst kv ++ lit ".xml" ++ [NL] ++ layout_reconstruct (snd kv) ++ [NL]) (vw_layouts v)) =
              concat (map (fun s => join NL s ++ [NL]) (map sec_lines (vw_layouts v)))).
  { rewrite map_map. f_equal. apply map_ext_in. intros kv Hkv. apply sec_text. rewrite Forall_forall in H1. now apply H1. }
  assert (B : concat (map (fun kv => [AT] ++ fst kv ++ lit ".xml_fab" ++ [NL] ++ view_line_reconstruct (snd kv) ++ [NL]) (vw_fabs v)) =
              concat (map (fun s => join NL s ++ [NL]) (map fab_lines (vw_fabs v)))).
  { rewrite map_map. f_equal. apply map_ext. intros kv. unfold fab_lines, fab_header. cbn [join]. rewrite <- !app_assoc. reflexivity. }
  assert (C : concat (map (fun s => join NL s ++ [NL]) (map fab_lines (vw_fabs v))) = join NL (concat (map fab_lines (vw_fabs v)) ++ [[]])).
  { rewrite <- join_concat_nl; [|discriminate|apply Forall_map, Forall_forall; discriminate]. cbn [join]. now rewrite app_nil_r. }
  rewrite A, B, C.
  change ([NL] ++ join NL (concat (map fab_lines (vw_fabs v)) ++ [[]])) with ([] ++ NL :: join NL (concat (map fab_lines (vw_fabs v)) ++ [[]])).
  rewrite (join_nil_sep []) by (intros E; apply app_eq_nil in E as [_ E]; discriminate).
  apply join_concat_nl; [discriminate|]. apply Forall_map, Forall_forall. discriminate.
Qed.
Lemma header_edge n s : s <> [] -> is_ws (last s 0) = false -> line_edge ([AT] ++ n ++ s).
Proof. intros Hs H. right. split; [discriminate|]. rewrite app_assoc, last_app_ne; auto. Qed.
Lemma clean_line_edge s : clean_line s -> line_edge s.
Proof. intros H. right. split; [now apply clean_nonnil|]. now rewrite clean_last. Qed.
Lemma layout_lines_all (P : str -> Prop) l : P [] -> Forall view_good l -> (forall s, clean_line s -> P s) -> Forall P (layout_lines l).
Proof.
  intros H0 H HP. unfold layout_lines. destruct l as [|x l]; [repeat constructor; auto|]. cbn [lines_of map].
  change (view_line_reconstruct x :: map view_line_reconstruct l) with (map view_line_reconstruct (x :: l)).
  apply Forall_map. eapply Forall_impl; [|exact H]. intros y Hy. apply HP. now apply view_good_clean.
Qed.
Lemma all_lines_all (P : str -> Prop) v : view_file_ok v -> P [] -> (forall s, clean_line s -> P s) ->
  (forall n, name_ok n -> P (xml_header n)) -> (forall n, name_ok n -> P (fab_header n)) -> Forall P (all_lines v).
Proof.
  intros (H1 & H2 & _) P0 Pc Px Pf. unfold all_lines. apply Forall_app. split.
  - apply Forall_concat, Forall_map. eapply Forall_impl; [|exact H1]. intros kv [Hn Hv]. constructor; auto. now apply layout_lines_all.
  - constructor; auto. apply Forall_app. split; [|repeat constructor; auto].
    apply Forall_concat, Forall_map. eapply Forall_impl; [|exact H2]. intros kv [Hn Hv]. repeat constructor; auto. apply Pc. now apply view_good_clean.
Qed.
(** what is read back is these lines without the trailing blank ones *)
Lemma view_lines v : view_file_ok v -> exists ls k, all_lines v = ls ++ repeat [] k /\ (ls = [] \/ last ls [] <> []) /\
  split_on NL (view_reconstruct v) = lines_of ls.
Proof.
  intros H. destruct (trim_lines (all_lines v)) as (ls & k & E & T & L).
  { apply all_lines_all; auto; [now left|apply clean_line_edge| |]; intros n _; apply header_edge; (discriminate || reflexivity). }
  exists ls, k. split; [auto|split; [auto|]]. rewrite view_text, T by auto. rewrite <- join_lines_of. apply split_join; [apply lines_of_ne|].
  assert (F : Forall (fun s => ~ In NL s) (all_lines v)).
  { assert (HN : forall n s, name_ok n -> ~ In NL s -> ~ In NL ([AT] ++ n ++ s)).
    { intros n s [Hn _] Hs Hi. apply in_app_or in Hi as [Hi|Hi]; [cbn in Hi; destruct Hi as [Hi|[]]; discriminate|].
      apply in_app_or in Hi as [Hi|Hi]; auto. }
    apply all_lines_all; auto; [apply clean_no_nl| |]; intros n Hn; apply HN; auto; nonl. }
  rewrite E in F. apply Forall_app in F as [F _]. destruct ls; auto. cbn. repeat constructor. auto.
Qed.

(** ** reading *)
Lemma header_split n k : name_ok n -> split_once (lit ".") (n ++ lit "." ++ k) = Some (n, k).
Proof. intros [_ H]. apply split_once_char. exact H. Qed.
Lemma layout_iter_views l rest acc c : Forall view_good l -> layout_parse_iter (map view_line_reconstruct l ++ rest) acc c =
  layout_parse_iter rest (acc ++ l) (c + N.of_nat (length l)).
Proof.
  intros H. revert acc c; induction H as [|x l Hx H IH]; intros acc c; [now rewrite app_nil_r, N.add_0_r|].
  cbn [map app layout_parse_iter]. destruct (clean_head _ (view_good_clean _ Hx)) as [t Et]. rewrite Et at 1. rewrite view_line_rt by auto.
  rewrite IH, <- app_assoc. f_equal. cbn [length]. lia.
Qed.
Lemma loop_xml fuel n r acc c : name_ok n -> view_loop (S fuel) (xml_header n :: r) acc c =
  match layout_parse_iter r [] 0 with
  | Ok (lay, r', k) => view_loop fuel r' {| vw_layouts := sinsert n lay (vw_layouts acc); vw_fabs := vw_fabs acc |} (c + 1 + k)
  | Err e => Err (VLayoutParseError n (lit "xml") e)
  | Panic => Panic
  end.
Proof.
  intros H. cbn [view_loop]. unfold xml_header. rewrite starts_with_app. cbn [negb].
  change (bdrop 1 ([AT] ++ n ++ lit ".xml")) with (bdrop (blen [AT]) ([AT] ++ n ++ lit ".xml")). rewrite bdrop_app. cbn [unwrap bind].
  change (lit ".xml") with (lit "." ++ lit "xml"). rewrite header_split by auto. rewrite str_eqb_refl. reflexivity.
Qed.
Lemma loop_fab fuel n x r acc c : name_ok n -> view_good x -> view_loop (S fuel) (fab_header n :: view_line_reconstruct x :: r) acc c =
  view_loop fuel r {| vw_layouts := vw_layouts acc; vw_fabs := sinsert n x (vw_fabs acc) |} (c + 2).
Proof.
  intros H Hx. cbn [view_loop]. unfold fab_header. rewrite starts_with_app. cbn [negb].
  change (bdrop 1 ([AT] ++ n ++ lit ".xml_fab")) with (bdrop (blen [AT]) ([AT] ++ n ++ lit ".xml_fab")). rewrite bdrop_app. cbn [unwrap bind].
  change (lit ".xml_fab") with (lit "." ++ lit "xml_fab"). rewrite header_split by auto.
  change (str_eqb (lit "xml_fab") (lit "xml")) with false. rewrite str_eqb_refl. rewrite view_line_rt by auto.
  f_equal. lia.
Qed.
Lemma loop_fabs fabs acc fuel c : Forall (fun kv => name_ok (fst kv) /\ view_good (snd kv)) fabs ->
  NoDup (map fst (vw_fabs acc ++ fabs)) -> (length (concat (map fab_lines fabs)) < fuel)%nat ->
  view_loop fuel (concat (map fab_lines fabs)) acc c = Ok {| vw_layouts := vw_layouts acc; vw_fabs := vw_fabs acc ++ fabs |}.
Proof.
  intros H. revert acc fuel c; induction H as [|[n x] fabs [Hn Hx] H IH]; intros acc fuel c ND L.
  - destruct fuel; [cbn in L; lia|]. cbn. rewrite app_nil_r. now destruct acc.
  - cbn [map concat fab_lines app fst snd length] in *. destruct fuel; [lia|]. rewrite loop_fab by auto.
    assert (Hnot : ~ In n (map fst (vw_fabs acc))).
    { rewrite map_app in ND. cbn [map fst] in ND. apply NoDup_remove_2 in ND. intros Hi. apply ND. apply in_or_app. auto. }
    rewrite sinsert_notin by auto. rewrite IH; cbn [vw_layouts vw_fabs]; [now rewrite <- app_assoc|now rewrite <- app_assoc|lia].
Qed.
(** layouts without views, each followed by a blank line *)
Lemma loop_empties pre rest acc fuel c : Forall (fun kv => name_ok (fst kv) /\ snd kv = []) pre ->
  NoDup (map fst (vw_layouts acc ++ pre)) -> (length (concat (map sec_lines pre) ++ rest) < fuel)%nat ->
  exists fuel' c', (length rest < fuel')%nat /\
  view_loop fuel (concat (map sec_lines pre) ++ rest) acc c =
  view_loop fuel' rest {| vw_layouts := vw_layouts acc ++ pre; vw_fabs := vw_fabs acc |} c'.
Proof.
  intros H. revert acc fuel c; induction H as [|[n x] pre [Hn Hx] H IH]; intros acc fuel c ND L.
  - exists fuel, c. split; auto. cbn. rewrite app_nil_r. now destruct acc.
  - cbn [fst snd] in *. subst x. change (concat (map sec_lines ((n, []) :: pre))) with (xml_header n :: [] :: concat (map sec_lines pre)) in *.
    cbn [app length] in *. destruct fuel as [|fuel]; [lia|]. rewrite loop_xml by auto.
    cbn [layout_parse_iter].
    assert (Hnot : ~ In n (map fst (vw_layouts acc))).
    { rewrite map_app in ND. cbn [map fst] in ND. apply NoDup_remove_2 in ND. intros Hi. apply ND. apply in_or_app. auto. }
    rewrite sinsert_notin by auto.
    match goal with |- context [view_loop fuel _ ?a ?k] => destruct (IH a fuel k) as (fuel' & c' & L' & E) end.
    + cbn [vw_layouts]. now rewrite <- app_assoc.
    + lia.
    + exists fuel', c'. split; auto. rewrite E. cbn [vw_layouts vw_fabs]. now rewrite <- app_assoc.
Qed.

(** the layouts that the format can separate: all but the last one are empty *)
Inductive separable : view -> Prop :=
| sep_none : separable {| vw_layouts := []; vw_fabs := [] |}
| sep_last pre n l fabs : Forall (fun kv => snd kv = []) pre -> l <> [] \/ fabs = [] ->
    separable {| vw_layouts := pre ++ [(n, l)]; vw_fabs := fabs |}.
Lemma pre_ok pre (post : list (str * layout)) : Forall (fun kv => name_ok (fst kv) /\ Forall view_good (snd kv)) (pre ++ post) ->
  Forall (fun kv => snd kv = []) pre -> Forall (fun kv => name_ok (fst kv) /\ snd kv = []) pre.
Proof.
  intros H E. apply Forall_app in H as [H _]. rewrite Forall_forall in *. intros kv Hk. split; [now apply H|auto].
Qed.
Lemma layout_iter_end l : Forall view_good l -> layout_parse_iter (map view_line_reconstruct l) [] 0 = Ok (l, [], N.of_nat (length l) + 1).
Proof. intros H. rewrite <- (app_nil_r (map _ l)). rewrite layout_iter_views by auto. reflexivity. Qed.
Lemma last_nonnil_repeat (ls : list str) k xs : xs = ls ++ repeat [] k -> (ls = [] \/ last ls [] <> []) -> last xs [] <> [] -> ls = xs.
Proof.
  intros -> _ H. destruct k; [now rewrite app_nil_r|]. exfalso. apply H. rewrite last_app_ne by discriminate.
  replace (S k) with (k + 1)%nat by lia. rewrite repeat_app. apply last_last.
Qed.
Lemma strip_unique (ls xs : list str) j k : ls ++ repeat [] k = xs ++ repeat [] j -> (ls = [] \/ last ls [] <> []) -> (xs = [] \/ last xs [] <> []) -> ls = xs.
Proof.
  revert j k. assert (K : forall (ls xs : list str) j k, (k <= j)%nat -> ls ++ repeat [] k = xs ++ repeat [] j -> (ls = [] \/ last ls [] <> []) -> ls = xs).
  { intros l x j k Hk E L. replace j with ((j - k) + k)%nat in E by lia. rewrite repeat_app, app_assoc in E. apply app_inv_tail in E. subst.
    destruct (j - k)%nat as [|d] eqn:Ed; [now rewrite app_nil_r|]. exfalso.
    destruct L as [L|L]; [destruct x; discriminate|]. apply L. replace (S d) with (d + 1)%nat by lia.
    rewrite repeat_app, app_assoc. apply last_last. }
  intros j k E L1 L2. destruct (Nat.le_ge_cases k j); [eapply K; eauto|symmetry; eapply K; eauto].
Qed.
Theorem view_rt v : view_file_ok v -> separable v -> view_parse (view_reconstruct v) = Ok v.
Proof.
  intros OK S. destruct S as [|pre n l fabs Hp Hl]; [reflexivity|].
  destruct (view_lines _ OK) as (ls & k & E & L & T). unfold view_parse. rewrite T.
  destruct OK as (H1 & H2 & ND1 & ND2). cbn [vw_layouts vw_fabs] in *.
  pose proof (pre_ok _ _ H1 Hp) as Hpre. apply Forall_app in H1 as [_ H1]. inversion H1 as [|? ? [Hn Hg] _]; subst. cbn [fst snd] in *.
  unfold all_lines in E. cbn [vw_layouts vw_fabs] in E. rewrite map_app, concat_app in E. cbn [map concat] in E. rewrite app_nil_r in E.
  unfold sec_lines at 2 in E. cbn [fst snd] in E. rewrite <- app_assoc in E. cbn [app] in E.
  set (P := concat (map sec_lines pre)) in *.
  (* the lines actually present *)
  assert (EL : lines_of ls = P ++ xml_header n :: match l with [] => [] | _ => map view_line_reconstruct l ++
                 match fabs with [] => [] | _ => [] :: concat (map fab_lines fabs) end end).
  { assert (Hne : forall X Y, lines_of (X ++ xml_header n :: Y) = X ++ xml_header n :: Y) by (intros [|? ?] Y; reflexivity).
    assert (Hcl : forall x, view_good x -> view_line_reconstruct x <> []) by (intros x Hx; apply clean_nonnil; now apply view_good_clean).
    assert (LL : forall l, l <> [] -> Forall view_good l -> last (map view_line_reconstruct l) [] <> []).
    { clear - Hcl. intros l Hn H. destruct l as [|x l] using rev_ind; [congruence|]. rewrite map_app. cbn [map]. rewrite last_last.
      apply Forall_app in H as [_ H]. inversion H; subst. auto. }
    destruct l as [|x l].
    - destruct Hl as [Hl|Hl]; [congruence|]. subst fabs. cbn [layout_lines map lines_of concat app] in E.
      rewrite <- Hne. f_equal. apply (strip_unique _ _ 3 k); [|auto|right; rewrite last_app_ne by discriminate; discriminate].
      rewrite <- app_assoc. cbn [app repeat]. auto.
    - cbn [layout_lines map lines_of] in E. change (view_line_reconstruct x :: map view_line_reconstruct l) with (map view_line_reconstruct (x :: l)) in E.
      set (xl := x :: l) in *. assert (Hxl : xl <> []) by discriminate. clearbody xl. clear x l Hl.
      assert (Hm : map view_line_reconstruct xl <> []) by (destruct xl; [congruence|discriminate]).
      rewrite <- Hne. f_equal. destruct fabs as [|f fabs].
      + cbn [map concat app] in E. rewrite app_nil_r.
        apply (strip_unique _ _ 2 k); [rewrite <- app_assoc; cbn [app repeat]; auto|auto|].
        right. rewrite last_app_ne by discriminate. change (xml_header n :: map view_line_reconstruct xl) with ([xml_header n] ++ map view_line_reconstruct xl).
        rewrite last_app_ne by auto. now apply LL.
      + set (ff := f :: fabs) in *. assert (Hff : ff <> []) by discriminate. clearbody ff.
        assert (Hc : concat (map fab_lines ff) <> []) by (destruct ff; [congruence|discriminate]).
        apply (strip_unique _ _ 1 k); [rewrite <- app_assoc; cbn [app repeat]; rewrite <- app_assoc; cbn [app]; auto|auto|].
        right. rewrite last_app_ne by discriminate.
        change (xml_header n :: map view_line_reconstruct xl ++ [] :: concat (map fab_lines ff))
          with ([xml_header n] ++ map view_line_reconstruct xl ++ [[]] ++ concat (map fab_lines ff)).
        rewrite !app_assoc, last_app_ne by auto. clear - H2 Hff Hcl. destruct ff as [|[a b] ff] using rev_ind; [congruence|].
        rewrite map_app, concat_app. cbn [map concat fab_lines app fst snd]. rewrite last_app_ne by discriminate. cbn [last].
        apply Forall_app in H2 as [_ H2]. inversion H2 as [|? ? [_ Hg] _]; subst. auto. }
  rewrite EL. clear E T EL L.
  destruct (loop_empties pre (xml_header n :: match l with [] => [] | _ => map view_line_reconstruct l ++
                 match fabs with [] => [] | _ => [] :: concat (map fab_lines fabs) end end) {| vw_layouts := []; vw_fabs := [] |}
              (Datatypes.S (length (P ++ xml_header n :: match l with [] => [] | _ => map view_line_reconstruct l ++
                 match fabs with [] => [] | _ => [] :: concat (map fab_lines fabs) end end))) 0) as (fuel & c & L & E); auto.
  { cbn [vw_layouts app]. rewrite map_app in ND1. now apply NoDup_app_l in ND1. }
  fold P in E. rewrite E. clear E. cbn [vw_layouts vw_fabs app].
  assert (Hnot : ~ In n (map fst pre)).
  { rewrite map_app in ND1. cbn [map fst] in ND1. apply NoDup_remove_2 in ND1. now rewrite app_nil_r in ND1. }
  destruct fuel as [|fuel]; [cbn in L; lia|]. rewrite loop_xml by auto. cbn [length] in L.
  destruct l as [|x l].
  - destruct Hl as [Hl|Hl]; [congruence|]. subst fabs. cbn [layout_parse_iter vw_layouts vw_fabs]. rewrite sinsert_notin by auto.
    destruct fuel; [cbn in L; lia|]. reflexivity.
  - set (xl := x :: l) in *. clearbody xl. rewrite layout_iter_views by auto. cbn [app].
    destruct fabs as [|f fabs].
    + cbn [layout_parse_iter vw_layouts vw_fabs]. rewrite sinsert_notin by auto. destruct fuel; [cbn in L; lia|]. reflexivity.
    + cbn [layout_parse_iter vw_layouts vw_fabs]. rewrite sinsert_notin by auto.
      rewrite app_length in L. cbn [length] in L.
      rewrite loop_fabs; [reflexivity|auto|auto|lia].
Qed.

(** ** what happens otherwise *)
(** a non-empty layout followed by another one: the header of the second is taken for a view *)
Theorem view_rt_fail v pre n l n2 l2 post : view_file_ok v -> vw_layouts v = pre ++ (n, l) :: (n2, l2) :: post ->
  Forall (fun kv => snd kv = []) pre -> l <> [] ->
  exists e, view_parse (view_reconstruct v) = Err (VLayoutParseError n (lit "xml") e) /\ lpe_content e = xml_header n2.
Proof.
  intros OK EV Hp Hl. destruct (view_lines _ OK) as (ls & k & E & L & T). unfold view_parse. rewrite T.
  destruct OK as (H1 & H2 & ND1 & ND2). rewrite EV in *.
  pose proof (pre_ok _ _ H1 Hp) as Hpre. apply Forall_app in H1 as [_ H1]. inversion H1 as [|? ? [Hn Hg] H3]; subst. cbn [fst snd] in *.
  unfold all_lines in E. rewrite EV, map_app, concat_app in E. cbn [map concat] in E.
  unfold sec_lines at 2 3 in E. cbn [fst snd] in E. rewrite <- !app_assoc in E. cbn [app] in E.
  replace (layout_lines l) with (map view_line_reconstruct l) in E by (destruct l; [congruence|reflexivity]).
  set (P := concat (map sec_lines pre)) in *.
  assert (X : exists Y, ls = (P ++ xml_header n :: map view_line_reconstruct l) ++ xml_header n2 :: Y).
  { match type of E with ?lhs = _ => match lhs with context [xml_header n2 :: ?r] =>
      assert (E2 : (P ++ xml_header n :: map view_line_reconstruct l) ++ xml_header n2 :: r = ls ++ repeat [] k) by (rewrite <- app_assoc; exact E) end end.
    apply repeat_nil_in in E2; [|discriminate]. destruct E2 as (Y & -> & _). eauto. }
  destruct X as [Y ->]. clear E T L.
  replace (lines_of ((P ++ xml_header n :: map view_line_reconstruct l) ++ xml_header n2 :: Y))
    with (P ++ xml_header n :: map view_line_reconstruct l ++ xml_header n2 :: Y) by (rewrite <- app_assoc; destruct P; reflexivity).
  match goal with |- context [view_loop ?f (P ++ ?r) ?a ?c] => destruct (loop_empties pre r a f c) as (fuel & c' & L & E); auto end.
  { cbn [vw_layouts app]. rewrite map_app in ND1. now apply NoDup_app_l in ND1. }
  fold P in E. rewrite E. clear E. destruct fuel as [|fuel]; [lia|]. rewrite loop_xml by auto.
  rewrite layout_iter_views by auto. cbn [app layout_parse_iter]. unfold xml_header at 1. cbn [app].
  unfold xml_header at 1. cbn [app]. rewrite view_line_parse_at. eexists. split; [reflexivity|]. reflexivity.
Qed.
(** no layout has views, and there are fabs: the fabs are lost *)
Theorem view_rt_lost v : view_file_ok v -> Forall (fun kv => snd kv = []) (vw_layouts v) -> vw_fabs v <> [] ->
  view_parse (view_reconstruct v) = Ok {| vw_layouts := vw_layouts v; vw_fabs := [] |}.
Proof.
  intros OK Hp Hf. destruct (view_lines _ OK) as (ls & k & E & L & T). unfold view_parse. rewrite T.
  destruct OK as (H1 & H2 & ND1 & ND2). rewrite <- (app_nil_r (vw_layouts v)) in H1. pose proof (pre_ok _ _ H1 Hp) as Hpre.
  destruct (vw_fabs v) as [|[fn fx] fabs] eqn:EF; [congruence|]. unfold all_lines in E. rewrite EF in E.
  cbn [map concat fab_lines fst snd app] in E. set (P := concat (map sec_lines (vw_layouts v))) in *.
  assert (X : exists Y, ls = (P ++ [[]]) ++ fab_header fn :: Y).
  { match type of E with ?lhs = _ => match lhs with context [fab_header fn :: ?r] =>
      assert (E2 : (P ++ [[]]) ++ fab_header fn :: r = ls ++ repeat [] k) by (rewrite <- app_assoc; exact E) end end.
    apply repeat_nil_in in E2; [|discriminate]. destruct E2 as (Y & -> & _). eauto. }
  destruct X as [Y ->]. clear E T L.
  replace (lines_of ((P ++ [[]]) ++ fab_header fn :: Y)) with (P ++ [] :: fab_header fn :: Y) by (rewrite <- app_assoc; destruct P; reflexivity).
  match goal with |- context [view_loop ?f (P ++ ?r) ?a ?c] => destruct (loop_empties (vw_layouts v) r a f c) as (fuel & c' & L & E); auto end.
  fold P in E. rewrite E. destruct fuel as [|fuel]; [lia|]. reflexivity.
Qed.
(** ** reading never panics *)
Lemma layout_iter_nopanic lines acc c : layout_parse_iter lines acc c <> Panic.
Proof. revert acc c; induction lines as [|[|x l] r IH]; intros acc c; cbn [layout_parse_iter]; try discriminate. destruct (view_line_parse (x :: l)); [apply IH|discriminate]. Qed.
Lemma layout_iter_len lines acc c a r k : layout_parse_iter lines acc c = Ok (a, r, k) -> (length r <= length lines)%nat.
Proof.
  revert acc c; induction lines as [|[|x l] ls IH]; intros acc c; cbn [layout_parse_iter]; try (intros [= <- <- <-]; cbn; lia).
  destruct (view_line_parse (x :: l)); [|discriminate]. intros H. apply IH in H. cbn. lia.
Qed.
Lemma view_loop_nopanic fuel lines acc n : (length lines < fuel)%nat -> view_loop fuel lines acc n <> Panic.
Proof.
  revert lines acc n; induction fuel as [|fuel IH]; intros lines acc n L; [lia|]. cbn [view_loop]. destruct lines as [|l r]; [discriminate|].
  destruct (starts_with [AT] l) eqn:ES; cbn [negb]; [|discriminate]. apply starts_with_spec in ES as [t ->].
  change (bdrop 1 ([AT] ++ t)) with (bdrop (blen [AT]) ([AT] ++ t)). rewrite bdrop_app. cbn [unwrap bind].
  destruct (split_once (lit ".") t) as [[name kind]|]; [|discriminate].
  destruct (str_eqb kind (lit "xml")).
  - pose proof (layout_iter_nopanic r [] 0). pose proof (layout_iter_len r [] 0) as LL. destruct (layout_parse_iter r [] 0) as [[[lay r'] c]|e|]; [|discriminate|congruence].
    apply IH. specialize (LL lay r' c eq_refl). cbn [length] in L. lia.
  - destruct (str_eqb kind (lit "xml_fab")); [|apply IH; cbn [length] in L; lia].
    destruct r as [|f r']; [discriminate|]. destruct (view_line_parse f); [|discriminate]. apply IH. cbn [length] in L. lia.
Qed.
Theorem view_parse_nopanic s : view_parse s <> Panic.
Proof. unfold view_parse. apply view_loop_nopanic. lia. Qed.
