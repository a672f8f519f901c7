(** Proofs for the exact meaning of [logic] text: which sections are read and what becomes of them *)
From Verif Require Import Base Spec Str Dec Json JsonProofs Recs RecsProofs LinesProofs FileProofs M_Color ColorProofs M_Logic LogicProofs.
From Verif Require Import LogicFileProofs LogicMapProofs SpecLines SpecReading ReadingProofs.

(** ** headers *)
Lemma split_once_first p s : match split_once p s with
  | Some (a, b) => s = a ++ p ++ b /\ ~ (exists a' b', s = a' ++ p ++ b' /\ (length a' < length a)%nat) | None => ~ contains p s end.
Proof.
  induction s as [|x s IH]; cbn [split_once].
  - destruct (strip_prefix p []) as [r|] eqn:E.
    + apply strip_prefix_spec in E. split; auto. intros (a' & b' & _ & L). cbn in L. lia.
    + intros (a & b & H). destruct a; [|discriminate]. cbn [app] in H. rewrite H, strip_prefix_app in E. discriminate.
  - destruct (strip_prefix p (x :: s)) as [r|] eqn:E.
    + apply strip_prefix_spec in E. split; auto. intros (a' & b' & _ & L). cbn in L. lia.
    + assert (Z : forall a b, x :: s = a ++ p ++ b -> exists a', a = x :: a' /\ s = a' ++ p ++ b).
      { intros a b H. destruct a as [|y a]; [cbn [app] in H; rewrite H, strip_prefix_app in E; discriminate|]. injection H as <- H. eauto. }
      destruct (split_once p s) as [[a b]|].
      * destruct IH as [-> IH]. split; auto. intros (a' & b' & H & L). apply Z in H as (a2 & -> & H). apply IH. exists a2, b'. cbn in L. split; auto. lia.
      * intros (a & b & H). apply Z in H as (a2 & -> & H). apply IH. exists a2, b. auto.
Qed.
Lemma contains_no_java s : ~ contains (lit ".java_") s <-> no_java s.
Proof. unfold contains, no_java. split; [intros H a b E; apply H; eauto|intros H (a & b & E); exact (H a b E)]. Qed.
Lemma split_java_inv s : match split_once (lit ".java_") s with
  | Some (a, b) => s = a ++ lit ".java_" ++ b /\ no_java a | None => no_java s end.
Proof.
  pose proof (split_once_first (lit ".java_") s) as H. destruct (split_once (lit ".java_") s) as [[a b]|]; [|now apply contains_no_java].
  destruct H as [-> H]. split; auto. intros a' b' ->. apply H. exists a', (b' ++ lit ".java_" ++ b). split; [now rewrite <- !app_assoc|].
  rewrite !app_length. cbn. lia.
Qed.
Definition first_piece (c rest : str) : Prop := no_java c /\ (rest = c \/ exists d, rest = c ++ lit ".java_" ++ d).
Lemma split_first_iff rest c : split_first (lit ".java_") rest = c <-> first_piece c rest.
Proof.
  unfold split_first, first_piece. split.
  - pose proof (split_java_inv rest) as H. destruct (split_once (lit ".java_") rest) as [[a b]|]; intros <-; [destruct H as [-> H]; eauto|auto].
  - intros [H [->|[d ->]]]; [exact (split_first_java c H)|now rewrite split_once_java].
Qed.
Lemma container_header_iff s h : container_header_parse s = Ok h <->
  exists rest, s = 64 :: ch_screen h ++ lit ".java_" ++ rest /\ no_java (ch_screen h) /\ first_piece (ch_container h) rest.
Proof.
  unfold container_header_parse. split.
  - intros H. destruct (starts_with (lit "@") s) eqn:S; [|discriminate]. apply starts_with_spec in S as [t ->].
    pose proof (split_java_inv (lit "@" ++ t)) as J. destruct (split_once (lit ".java_") (lit "@" ++ t)) as [[a b]|].
    + destruct J as [E N]. destruct a as [|x a]; [discriminate|]. cbn [app] in E. injection E as <- E.
      change (64 :: a) with ([64] ++ a) in H. change 1%nat with (blen [64]) in H. rewrite bdrop_app in H. cbn [unwrap bind] in H. injection H as <-. cbn [ch_screen ch_container].
      exists b. split; [now rewrite E|]. split; [intros u v ->; apply (N (64 :: u) v); reflexivity|]. now apply split_first_iff.
    + change 1%nat with (blen (lit "@")) in H. rewrite bdrop_app in H. discriminate.
  - intros (rest & -> & N & P). replace (starts_with (lit "@") _) with true by (symmetry; apply starts_with_spec; eexists; reflexivity).
    change (64 :: ch_screen h ++ lit ".java_" ++ rest) with ((64 :: ch_screen h) ++ lit ".java_" ++ rest).
    rewrite split_once_java by (intros [|x a] b E; [discriminate|injection E as _ E; exact (N a b E)]).
    change (64 :: ch_screen h) with ([64] ++ ch_screen h). change 1%nat with (blen [64]). rewrite bdrop_app. cbn [unwrap bind].
    apply split_first_iff in P. rewrite P. destruct h; reflexivity.
Qed.
Lemma container_header_err s e : container_header_parse s = Err e <->
  ((forall t, s <> 64 :: t) /\ e = DoesntStartWithAtSign) \/ ((exists t, s = 64 :: t) /\ ~ contains (lit ".java_") s /\ e = NoContainerName).
Proof.
  unfold container_header_parse. destruct (starts_with (lit "@") s) eqn:S.
  - apply starts_with_spec in S as [t ->]. pose proof (split_java_inv (lit "@" ++ t)) as J. destruct (split_once (lit ".java_") (lit "@" ++ t)) as [[a b]|].
    + destruct J as [E N]. destruct a as [|x a]; [discriminate|]. cbn [app] in E. injection E as <- E.
      change (64 :: a) with ([64] ++ a). change 1%nat with (blen [64]). rewrite bdrop_app. cbn [unwrap bind]. split; [discriminate|].
      intros [[H _]|(_ & H & _)]; [now destruct (H t)|]. exfalso. apply H. exists (64 :: a), b. rewrite E. reflexivity.
    + change 1%nat with (blen (lit "@")). rewrite bdrop_app. cbn [unwrap bind]. apply contains_no_java in J. split.
      * intros [= <-]. right. split; [exists t; reflexivity|auto].
      * intros [[H _]|(_ & _ & ->)]; [now destruct (H t)|reflexivity].
  - assert (N : forall t, s <> 64 :: t).
    { intros t ->. replace (starts_with (lit "@") (64 :: t)) with true in S by (symmetry; apply starts_with_spec; eexists; reflexivity). discriminate. }
    split; [intros [= <-]; left; auto|]. intros [[_ ->]|((t & E) & _)]; [reflexivity|]. now destruct (N t).
Qed.

(** the kind of a header, as the loop decides it *)
Definition pool_kinds : list (section_kind * (str * nat)) :=
  [(KVariables, (lit "java_var", 9)); (KLists, (lit "java_list", 10)); (KComponents, (lit "java_components", 16));
   (KEvents, (lit "java_events", 12)); (KMoreBlocks, (lit "java_func", 10))]%nat.
Definition pool_kind (h : str) : option (section_kind * nat) :=
  if ends_with (lit "java_var") h then Some (KVariables, 9%nat)
  else if ends_with (lit "java_list") h then Some (KLists, 10%nat)
  else if ends_with (lit "java_components") h then Some (KComponents, 16%nat)
  else if ends_with (lit "java_events") h then Some (KEvents, 12%nat)
  else if ends_with (lit "java_func") h then Some (KMoreBlocks, 10%nat) else None.
Lemma suffix_last (a s : str) x : last (a ++ s ++ [x]) 0 = x.
Proof. rewrite app_assoc. apply last_last. Qed.
Lemma pool_kind_some h k len : pool_kind h = Some (k, len) <-> exists suf a, In (k, suf) pool_suffixes /\ len = S (blen suf) /\ h = a ++ suf.
Proof.
  unfold pool_kind. split.
  - intros H. destruct (ends_with (lit "java_var") h) eqn:E1; [|destruct (ends_with (lit "java_list") h) eqn:E2;
      [|destruct (ends_with (lit "java_components") h) eqn:E3; [|destruct (ends_with (lit "java_events") h) eqn:E4;
      [|destruct (ends_with (lit "java_func") h) eqn:E5; [|discriminate]]]]]; injection H as <- <-;
      match goal with E : ends_with ?s h = true |- _ => apply ends_with_spec in E as [a ->]; exists s, a; (split; [cbn; auto 7|split; [reflexivity|reflexivity]]) end.
  - intros (suf & a & H & -> & ->). pose proof (@ends_with_app) as EA.
    cbn [pool_suffixes In] in H.
    assert (EW : forall s t, ends_with s (a ++ t) = true -> (length s <= length t)%nat -> exists r, t = r ++ s).
    { intros s t E L. apply ends_with_spec in E as [r E]. apply app_eq_app in E as (l & [[-> E]|[-> E]]); [|eauto]. 
      exists []. subst s. rewrite app_length in L. destruct l; [reflexivity|cbn in L; lia]. }
    assert (EW2 : forall s t, ends_with s (a ++ t) = true -> (length t <= length s)%nat -> exists r, s = r ++ t).
    { intros s t E L. apply ends_with_spec in E as [r E]. apply app_eq_app in E as (l & [[-> E]|[-> E]]); [eauto|]. 
      exists []. subst t. rewrite app_length in L. destruct l; [reflexivity|cbn in L; lia]. }
    assert (LL : forall s t r, s = r ++ t -> t <> [] -> last s 0 = last t 0).
    { intros s t r -> H0. destruct t as [|y t _] using rev_ind; [congruence|]. now rewrite app_assoc, !last_last. }
    assert (NO : forall s t, last s 0 <> last t 0 -> s <> [] -> t <> [] -> ends_with s (a ++ t) = false).
    { intros s t D H1 H2. destruct (ends_with s (a ++ t)) eqn:E; auto. exfalso. apply D. destruct (Nat.le_ge_cases (length s) (length t)) as [L|L].
      - destruct (EW s t E L) as [r ->]. symmetry. eapply LL; eauto.
      - destruct (EW2 s t E L) as [r ->]. eapply LL; eauto. }
    destruct H as [H|[H|[H|[H|[H|[]]]]]]; injection H as <- <-.
    + now rewrite ends_with_app.
    + rewrite (NO (lit "java_var") (lit "java_list")), ends_with_app by (vm_compute; discriminate). reflexivity.
    + rewrite (NO (lit "java_var") (lit "java_components")), (NO (lit "java_list") (lit "java_components")), ends_with_app by (vm_compute; discriminate). reflexivity.
    + rewrite (NO (lit "java_var") (lit "java_events")), (NO (lit "java_list") (lit "java_events")) by (vm_compute; discriminate).
      replace (ends_with (lit "java_components") (a ++ lit "java_events")) with false; [now rewrite ends_with_app|]. symmetry.
      destruct (ends_with (lit "java_components") (a ++ lit "java_events")) eqn:E; auto. destruct (EW2 _ _ E) as [r Er]; [cbn; lia|].
      exfalso. assert (L4 : length r = 4%nat) by (apply (f_equal (@length N)) in Er; rewrite app_length in Er; cbn in Er; lia).
      apply (f_equal (skipn 4)) in Er. rewrite <- L4 in Er at 2. rewrite skipn_app, skipn_all, Nat.sub_diag in Er. discriminate Er.
    + rewrite (NO (lit "java_var") (lit "java_func")), (NO (lit "java_list") (lit "java_func")), (NO (lit "java_components") (lit "java_func")),
        (NO (lit "java_events") (lit "java_func")), ends_with_app by (vm_compute; discriminate). reflexivity.
Qed.
Definition head_kind (h : str) : option (str * section_kind) :=
  match pool_kind h with
  | Some (k, len) => match header_name len h with Ok n => Some (n, k) | _ => None end
  | None => match container_header_parse h with Ok c => Some (ch_screen c, KBlocks (ch_container c)) | _ => None end
  end.
Lemma pool_kind_none h : pool_kind h = None <-> forall k suf a, In (k, suf) pool_suffixes -> h <> a ++ suf.
Proof.
  split.
  - intros H k suf a Hi ->. assert (X : pool_kind (a ++ suf) = Some (k, S (blen suf))) by (apply pool_kind_some; eauto). congruence.
  - intros H. destruct (pool_kind h) as [[k len]|] eqn:E; auto. apply pool_kind_some in E as (suf & a & Hi & _ & ->). exfalso. eapply H; eauto.
Qed.
Lemma suffix_head k suf : In (k, suf) pool_suffixes -> exists t, suf = 106 :: t.
Proof. cbn [pool_suffixes In]. intros [H|[H|[H|[H|[H|[]]]]]]; injection H as _ <-; eexists; reflexivity. Qed.
Lemma pool_header_split t a suf k : In (k, suf) pool_suffixes -> 64 :: t = a ++ suf -> exists mid, a = 64 :: mid.
Proof. intros Hi E. destruct a as [|x mid]; [apply suffix_head in Hi as [u ->]; discriminate|]. injection E as <- _. eauto. Qed.
Lemma head_kind_iff t n k : head_kind (64 :: t) = Some (n, k) <-> header_names (64 :: t) n k.
Proof.
  unfold head_kind. split.
  - destruct (pool_kind (64 :: t)) as [[k' len]|] eqn:P.
    + apply pool_kind_some in P as (suf & a & Hi & -> & E). destruct (pool_header_split _ _ _ _ Hi E) as [mid ->]. rewrite E.
      cbn [app]. destruct (header_name (S (blen suf)) (64 :: mid ++ suf)) as [n'| |] eqn:HN; try discriminate. intros [= <- <-].
      apply header_name_ok_iff in HN as (c & -> & Hc). rewrite <- app_assoc. now apply hn_pool.
    + destruct (container_header_parse (64 :: t)) as [c| |] eqn:C; try discriminate. intros [= <- <-].
      apply container_header_iff in C as (rest & E & N & [F1 F2]). eapply hn_blocks; eauto; try (now apply contains_no_java). now apply pool_kind_none.
  - intros H. inversion H as [k' suf n' c Hi Hc E|h n' rest c E NP N1 N2 R]; subst.
    + assert (P : pool_kind (64 :: n ++ c :: suf) = Some (k, S (blen suf))).
      { apply pool_kind_some. exists suf, (64 :: n ++ [c]). split; auto. split; auto. cbn [app]. now rewrite <- app_assoc. }
      rewrite P. assert (HN : header_name (S (blen suf)) (64 :: (n ++ [c]) ++ suf) = Ok n) by (apply header_name_ok_iff; eauto).
      rewrite <- app_assoc in HN. cbn [app] in HN. now rewrite HN.
    + rewrite (proj2 (pool_kind_none _) NP). apply contains_no_java in N1, N2.
      assert (C : container_header_parse (64 :: t) = Ok {| ch_screen := n; ch_container := c |}).
      { apply container_header_iff. exists rest. cbn [ch_screen ch_container]. split; auto. split; auto. split; auto. }
      rewrite C. reflexivity.
Qed.
Lemma header_names_at h n k : header_names h n k -> exists t, h = 64 :: t.
Proof. intros H. inversion H; subst; eauto. Qed.
Lemma header_names_fun h n k n' k' : header_names h n k -> header_names h n' k' -> n = n' /\ k = k'.
Proof. intros H H'. destruct (header_names_at _ _ _ H) as [t ->]. apply head_kind_iff in H, H'. split; congruence. Qed.

(** ** sections *)
Definition own {A} (f : A -> str) (xs : list A) : list (str * A) := keep_last (map (fun x => (f x, x)) xs).
Definition all_parse {E A} (p : str -> res E A) (body : list str) (xs : list A) : Prop := Forall2 (fun l x => p l = Ok x) body xs.
Definition sec_step (nm : str) (k : section_kind) (n : N) (r : list str) : res logic_error (sect * list str) :=
  match k with
  | KVariables => map_err (LVariablePool nm n) (rmap (fun pr => (SVar nm (fst pr), snd pr)) (variable_pool_parse_iter r))
  | KLists => map_err (LListVariablePool nm n) (rmap (fun pr => (SList nm (fst pr), snd pr)) (list_variable_pool_parse_iter r))
  | KComponents => map_err (LComponentPool nm n) (rmap (fun pr => (SComp nm (fst pr), snd pr)) (component_pool_parse_iter r))
  | KEvents => map_err (LEventPool nm n) (rmap (fun pr => (SEv nm (fst pr), snd pr)) (event_pool_parse_iter r))
  | KMoreBlocks => map_err (LMoreBlockPool nm n) (rmap (fun pr => (SMb nm (fst pr), snd pr)) (more_block_pool_parse_iter r))
  | KBlocks c => map_err (LBlockContainer nm c n) (rmap (fun pr => (SBlk nm c (fst pr), snd pr)) (block_container_parse_iter r))
  end.
Lemma step_rewrite {E A B C} (e : E -> logic_error) (f : A -> B) (x : res E (A * list str)) (g : B * list str -> res logic_error C) (g' : A * list str -> res logic_error C) :
  (forall a, x = Ok a -> g (f (fst a), snd a) = g' a) ->
  bind (map_err e (rmap (fun pr => (f (fst pr), snd pr)) x)) g = bind (map_err e x) g'.
Proof. intros H. destruct x; cbn; auto. Qed.
Lemma logic_run_step mv t r n m : logic_run mv ((64 :: t) :: r) n m =
  match head_kind (64 :: t) with
  | Some (nm, k) => let* sr := sec_step nm k n r in logic_run mv (snd sr) (n + 1) (s_apply mv m (fst sr))
  | None => match pool_kind (64 :: t) with Some _ => Panic | None => Err (LHeader n NoContainerName) end
  end.
Proof.
  unfold logic_run at 1. cbn [length]. remember (length r) as F eqn:EF. cbn [logic_loop].
  assert (Hs : starts_with (lit "@") (64 :: t) = true) by (apply starts_with_spec; exists t; reflexivity). rewrite Hs. cbn [negb].
  unfold head_kind, pool_kind.
  assert (HE : forall len e, header_name len (64 :: t) <> Err e) by (intros; apply header_name_no_err).
  destruct (ends_with (lit "java_var") (64 :: t)) eqn:E1; [|destruct (ends_with (lit "java_list") (64 :: t)) eqn:E2;
      [|destruct (ends_with (lit "java_components") (64 :: t)) eqn:E3; [|destruct (ends_with (lit "java_events") (64 :: t)) eqn:E4;
      [|destruct (ends_with (lit "java_func") (64 :: t)) eqn:E5]]]].
  1-5: match goal with |- context [header_name ?l ?h] => destruct (header_name l h) as [nm|e|] eqn:HN; [|destruct (HE _ _ HN)|reflexivity] end; cbn [bind sec_step];
    symmetry; eapply (step_rewrite _ (_ nm)); intros [p r'] Ep; cbn [fst snd]; unfold logic_run, s_apply; cbn [s_name s_fun]; apply logic_loop_fuel; auto;
    first [apply pool_loop_rest in Ep|apply more_block_rest in Ep|apply block_container_rest in Ep]; lia.
  destruct (container_header_parse (64 :: t)) as [c|e|] eqn:C.
  - cbn [map_err bind sec_step]. symmetry. eapply (step_rewrite _ (SBlk (ch_screen c) (ch_container c))); intros [p r'] Ep; cbn [fst snd]; unfold logic_run, s_apply; cbn [s_name s_fun]; apply logic_loop_fuel; auto.
    apply block_container_rest in Ep. lia.
  - cbn [map_err bind]. apply container_header_err in C as [[H _]|(_ & _ & ->)]; [now destruct (H t)|reflexivity].
  - destruct (container_header_nopanic _ C).
Qed.
Lemma pool_run {E A M} (p : str -> res E A) (ins : A -> M -> M) body xs tail rest n acc : ~ In [] body -> all_parse p body xs -> sec_end tail rest ->
  pool_loop p ins (body ++ tail) n acc = Ok (fold_left (fun m x => ins x m) xs acc, rest).
Proof.
  intros Hb F T. revert n acc Hb. induction F as [|l x body xs Hp _ IH]; intros n acc Hb; cbn [app fold_left].
  - now apply pool_loop_end.
  - cbn [pool_loop]. destruct l as [|c l]; [exfalso; apply Hb; now left|]. rewrite Hp. cbn [map_err bind]. apply IH. intros X. apply Hb. now right.
Qed.
Lemma pool_bad {E A M} (p : str -> res E A) (ins : A -> M -> M) body xs bad e rest n acc : ~ In [] body -> all_parse p body xs -> bad <> [] -> p bad = Err e ->
  pool_loop p ins (body ++ bad :: rest) n acc = Err {| pe_count := n + N.of_nat (length body); pe_content := bad; pe_source := e |}.
Proof.
  intros Hb F B1 B2. revert n acc Hb. induction F as [|l x body xs Hp _ IH]; intros n acc Hb; cbn [app].
  - cbn [pool_loop length N.of_nat]. destruct bad; [congruence|]. rewrite B2, N.add_0_r. reflexivity.
  - cbn [pool_loop]. destruct l as [|c l]; [exfalso; apply Hb; now left|]. rewrite Hp. cbn [map_err bind]. rewrite IH by (intros X; apply Hb; now right).
    cbn [length]. do 2 f_equal. lia.
Qed.
(** every run of a pool is one of the two *)
Lemma pool_cases {E A M} (p : str -> res E A) (ins : A -> M -> M) lines n acc : (forall s, p s <> Panic) ->
  exists body xs tail, lines = body ++ tail /\ ~ In [] body /\ all_parse p body xs /\
    ((exists rest, sec_end tail rest /\ pool_loop p ins lines n acc = Ok (fold_left (fun m x => ins x m) xs acc, rest)) \/
     (exists bad e rest, tail = bad :: rest /\ bad <> [] /\ p bad = Err e)).
Proof.
  intros NP. revert n acc. induction lines as [|l lines IH]; intros n acc.
  - exists [], [], []. split; auto. split; auto. split; [constructor|]. left. exists []. split; [left; auto|reflexivity].
  - destruct l as [|c l].
    + exists [], [], ([] :: lines). split; auto. split; auto. split; [constructor|]. left. exists lines. split; [right; auto|reflexivity].
    + destruct (p (c :: l)) as [x|e|] eqn:P; [|exists [], [], ((c :: l) :: lines); split; auto; split; auto; split; [constructor|]; right; exists (c :: l), e, lines; split; auto; split; [discriminate|auto]|destruct (NP _ P)].
      destruct (IH (n + 1) (ins x acc)) as (body & xs & tail & -> & Hb & F & K). exists ((c :: l) :: body), (x :: xs), tail.
      split; auto. split; [intros [X|X]; [discriminate|auto]|]. split; [constructor; auto|].
      destruct K as [(rest & T & K)|(bad & e & rest & -> & B1 & B2)]; [left; exists rest; split; auto|right; exists bad, e, rest; auto].
      cbn [pool_loop]. rewrite P. cbn [map_err bind]. exact K.
Qed.
Inductive body_reads (nm : str) : section_kind -> list str -> sect -> Prop :=
| br_var body xs : all_parse variable_parse body xs -> body_reads nm KVariables body (SVar nm (own va_name xs))
| br_list body xs : all_parse list_variable_parse body xs -> body_reads nm KLists body (SList nm (own lv_name xs))
| br_comp body xs : all_parse component_parse body xs -> body_reads nm KComponents body (SComp nm xs)
| br_ev body xs : all_parse event_parse body xs -> body_reads nm KEvents body (SEv nm xs)
| br_mb body xs : all_parse more_block_parse body xs -> body_reads nm KMoreBlocks body (SMb nm (own mb_id xs))
| br_blk c body xs : all_parse block_parse body xs -> body_reads nm (KBlocks c) body (SBlk nm c xs).
Lemma own_fold {A} (f : A -> str) xs : fold_left (fun m x => sinsert (f x) x m) xs [] = own f xs.
Proof.
  unfold own. rewrite <- keep_last_fold. generalize (@nil (str * A)). induction xs as [|x xs IH]; intros m; cbn [fold_left map fst snd]; auto.
Qed.
Lemma more_block_parse_nopanic s : more_block_parse s <> Panic.
Proof. unfold more_block_parse. destruct (split_once (lit ":") s) as [[a b]|]; discriminate. Qed.
Lemma step_ok nm k n body s tail rest : ~ In [] body -> body_reads nm k body s -> ends_section tail rest -> sec_step nm k n (body ++ tail) = Ok (s, rest).
Proof.
  intros Hb H T. destruct H as [body xs F|body xs F|body xs F|body xs F|body xs F|c body xs F]; cbn [sec_step].
  - unfold variable_pool_parse_iter. rewrite (pool_run _ _ _ _ _ _ _ _ Hb F T). unfold ins_variable, variable_pool. rewrite (own_fold va_name). reflexivity.
  - unfold list_variable_pool_parse_iter. rewrite (pool_run _ _ _ _ _ _ _ _ Hb F T). unfold ins_list_variable, list_variable_pool. rewrite (own_fold lv_name). reflexivity.
  - unfold component_pool_parse_iter. rewrite (pool_run _ _ _ _ _ _ _ _ Hb F T), fold_vpush. reflexivity.
  - unfold event_pool_parse_iter. rewrite (pool_run _ _ _ _ _ _ _ _ Hb F T), fold_vpush. reflexivity.
  - unfold more_block_pool_parse_iter. rewrite (pool_run _ _ _ _ _ _ _ _ Hb F T), fold_vpush. cbn [bind app]. rewrite own_fold. reflexivity.
  - unfold block_container_parse_iter. rewrite (pool_run _ _ _ _ _ _ _ _ Hb F T), fold_vpush. reflexivity.
Qed.
Lemma step_err nm k n body s bad e rest : ~ In [] body -> body_reads nm k body s -> bad <> [] -> line_error nm n body bad k e -> sec_step nm k n (body ++ bad :: rest) = Err e.
Proof.
  intros Hb H B1 B. destruct H as [body xs F|body xs F|body xs F|body xs F|body xs F|c body xs F]; inversion B as [? B2|? B2|? B2|? B2|? B2|? ? B2]; subst; cbn [sec_step].
  - unfold variable_pool_parse_iter. rewrite (pool_bad _ _ _ _ _ _ _ _ _ Hb F B1 B2). reflexivity.
  - unfold list_variable_pool_parse_iter. rewrite (pool_bad _ _ _ _ _ _ _ _ _ Hb F B1 B2). reflexivity.
  - unfold component_pool_parse_iter. rewrite (pool_bad _ _ _ _ _ _ _ _ _ Hb F B1 B2). reflexivity.
  - unfold event_pool_parse_iter. rewrite (pool_bad _ _ _ _ _ _ _ _ _ Hb F B1 B2). reflexivity.
  - unfold more_block_pool_parse_iter. rewrite (pool_bad _ _ _ _ _ _ _ _ _ Hb F B1 B2). reflexivity.
  - unfold block_container_parse_iter. rewrite (pool_bad _ _ _ _ _ _ _ _ _ Hb F B1 B2). reflexivity.
Qed.
Lemma step_cases nm k n lines : exists body s tail, lines = body ++ tail /\ ~ In [] body /\ body_reads nm k body s /\
  ((exists rest, ends_section tail rest) \/ (exists bad e rest, tail = bad :: rest /\ bad <> [] /\ line_error nm n body bad k e)).
Proof.
  assert (G : forall E A (p : str -> res E A), (forall s, p s <> Panic) -> exists body xs tail, lines = body ++ tail /\ ~ In [] body /\ all_parse p body xs /\
    ((exists rest, ends_section tail rest) \/ (exists bad e rest, tail = bad :: rest /\ bad <> [] /\ p bad = Err e))).
  { intros E A p NP. destruct (pool_cases p vpush lines 0 [] NP) as (body & xs & tail & E1 & Hb & F & K). exists body, xs, tail. split; auto. split; auto. split; auto.
    destruct K as [(rest & T & _)|K]; [left; exists rest; exact T|right; exact K]. }
  destruct k as [| | | | |c].
  - destruct (G _ _ variable_parse variable_nopanic) as (body & xs & tail & E1 & Hb & F & K). exists body, (SVar nm (own va_name xs)), tail. split; auto. split; auto. split; [now constructor|].
    destruct K as [K|(bad & e & rest & K1 & K2 & K3)]; [auto|]. right. eexists bad, _, rest. split; auto. split; auto. econstructor; eauto.
  - destruct (G _ _ list_variable_parse list_variable_nopanic) as (body & xs & tail & E1 & Hb & F & K). exists body, (SList nm (own lv_name xs)), tail. split; auto. split; auto. split; [now constructor|].
    destruct K as [K|(bad & e & rest & K1 & K2 & K3)]; [auto|]. right. eexists bad, _, rest. split; auto. split; auto. econstructor; eauto.
  - destruct (G _ _ component_parse (fun s => ok_or_nopanic _ _)) as (body & xs & tail & E1 & Hb & F & K). exists body, (SComp nm xs), tail. split; auto. split; auto. split; [now constructor|].
    destruct K as [K|(bad & e & rest & K1 & K2 & K3)]; [auto|]. right. eexists bad, _, rest. split; auto. split; auto. econstructor; eauto.
  - destruct (G _ _ event_parse (fun s => ok_or_nopanic _ _)) as (body & xs & tail & E1 & Hb & F & K). exists body, (SEv nm xs), tail. split; auto. split; auto. split; [now constructor|].
    destruct K as [K|(bad & e & rest & K1 & K2 & K3)]; [auto|]. right. eexists bad, _, rest. split; auto. split; auto. econstructor; eauto.
  - destruct (G _ _ more_block_parse more_block_parse_nopanic) as (body & xs & tail & E1 & Hb & F & K). exists body, (SMb nm (own mb_id xs)), tail. split; auto. split; auto. split; [now constructor|].
    destruct K as [K|(bad & e & rest & K1 & K2 & K3)]; [auto|]. right. eexists bad, _, rest. split; auto. split; auto. econstructor; eauto.
  - destruct (G _ _ block_parse (fun s => ok_or_nopanic _ _)) as (body & xs & tail & E1 & Hb & F & K). exists body, (SBlk nm c xs), tail. split; auto. split; auto. split; [now constructor|].
    destruct K as [K|(bad & e & rest & K1 & K2 & K3)]; [auto|]. right. eexists bad, _, rest. split; auto. split; auto. econstructor; eauto.
Qed.

(** ** the whole file *)
Definition sec_reads (hb : str * list str) (s : sect) : Prop := exists k, header_names (fst hb) (s_name s) k /\ body_reads (s_name s) k (snd hb) s.
Lemma body_reads_name nm k body s : body_reads nm k body s -> s_name s = nm.
Proof. now destruct 1. Qed.
Lemma logic_run_run mv lines secs rest ss : logic_sections_of lines secs rest -> Forall2 sec_reads secs ss -> forall n m,
  logic_run mv lines n m = logic_run mv rest (n + N.of_nat (length secs)) (fold_left (s_apply mv) ss m).
Proof.
  intros L. revert ss. induction L as [rest|h body tail r secs rest Hb T L IH]; intros ss F n m.
  - inversion F; subst. cbn [length fold_left N.of_nat]. now rewrite N.add_0_r.
  - inversion F as [|? s ? ss' (k & HN & R) F']; subst. cbn [fst snd] in *. rewrite logic_run_step. apply head_kind_iff in HN. rewrite HN.
    rewrite (step_ok _ _ _ _ _ _ _ Hb R T). cbn [bind fst snd]. rewrite (IH ss' F'). cbn [length fold_left]. f_equal. lia.
Qed.
(** what the loop meets after the sections it reads *)
Lemma body_reads_ok nm k body : Forall (line_ok k) body <-> exists s, body_reads nm k body s.
Proof.
  assert (G : forall E A (p : str -> res E A), Forall (fun l => exists x, p l = Ok x) body <-> exists xs, all_parse p body xs).
  { intros E A p. split.
    - induction 1 as [|l body [x Hx] _ [xs IH]]; [exists []; constructor|exists (x :: xs); constructor; auto].
    - intros [xs F]. induction F; constructor; eauto. }
  split.
  - intros H. destruct k; apply G in H as [xs H]; eexists; econstructor; exact H.
  - intros [s H]. destruct H; apply G; eauto.
Qed.
Lemma logic_stop_run mv n rest o m : logic_stop n rest o -> logic_run mv rest n m = match o with Some e => Err e | None => Panic end.
Proof.
  intros [t r H1 H2|r k suf mid Hi Hc|h nm k body bad r e HN Hb R B1 B2].
  - rewrite logic_run_step. unfold head_kind. rewrite (proj2 (pool_kind_none _) H2).
    rewrite (proj2 (container_header_err (64 :: t) NoContainerName)); [reflexivity|]. right. eauto.
  - rewrite logic_run_step. assert (P : pool_kind (64 :: mid ++ suf) = Some (k, S (blen suf))) by (apply pool_kind_some; exists suf, (64 :: mid); auto).
    unfold head_kind. rewrite P. destruct (header_name (S (blen suf)) (64 :: mid ++ suf)) as [nm|e|] eqn:HN; auto.
    apply header_name_ok_iff in HN as (c & -> & HC). exfalso. eauto.
  - destruct (header_names_at _ _ _ HN) as [t ->]. rewrite logic_run_step. apply head_kind_iff in HN. rewrite HN.
    apply (body_reads_ok nm) in R as [s R]. rewrite (step_err _ _ _ _ _ _ _ _ Hb R B1 B2). reflexivity.
Qed.
Lemma logic_no_header_run mv rest n m : no_header rest -> logic_run mv rest n m = Ok m.
Proof.
  intros H. destruct rest as [|l r]; [reflexivity|]. apply logic_run_stop. destruct (starts_with (lit "@") l) eqn:S; auto.
  apply starts_with_spec in S as [t ->]. exfalso. exact (H _ _ eq_refl t eq_refl).
Qed.
Lemma logic_progress lines n0 : exists secs ss rest, logic_sections_of lines secs rest /\ Forall2 sec_reads secs ss /\
  (no_header rest \/ exists o, logic_stop (n0 + N.of_nat (length secs)) rest o).
Proof.
  assert (G : forall k n0 lines, (length lines <= k)%nat -> exists secs ss rest, logic_sections_of lines secs rest /\ Forall2 sec_reads secs ss /\
    (no_header rest \/ exists o, logic_stop (n0 + N.of_nat (length secs)) rest o)).
  { clear. intros j. induction j as [|j IH]; intros n0 [|l r] L; cbn [length] in L; try lia.
    - exists [], [], []. split; [constructor|]. split; [constructor|]. left. intros ? ? ?. discriminate.
    - exists [], [], []. split; [constructor|]. split; [constructor|]. left. intros ? ? ?. discriminate.
    - assert (Stop : forall rest, (no_header rest \/ exists o, logic_stop n0 rest o) -> rest = l :: r -> exists secs ss rest, logic_sections_of (l :: r) secs rest /\ Forall2 sec_reads secs ss /\
        (no_header rest \/ exists o, logic_stop (n0 + N.of_nat (length secs)) rest o)).
      { intros rest K ->. exists [], [], (l :: r). split; [constructor|]. split; [constructor|]. cbn [length N.of_nat]. now rewrite N.add_0_r. }
      destruct l as [|a t]; [apply (Stop ([] :: r)); auto; left; intros ? ? [= <- <-] t; discriminate|].
      destruct (N.eq_dec a 64) as [->|D]; [|apply (Stop ((a :: t) :: r)); auto; left; intros ? ? [= <- <-] t' [= ? ?]; congruence].
      destruct (head_kind (64 :: t)) as [[nm k]|] eqn:HK.
      + apply head_kind_iff in HK. destruct (step_cases nm k n0 r) as (body & s & tail & -> & Hb & R & [(rest & T)|(bad & e & rest & -> & B1 & B2)]).
        * destruct (IH (n0 + 1) rest) as (secs & ss & rest' & L1 & F1 & K1); [rewrite app_length in L; apply ends_len in T; lia|].
          exists ((64 :: t, body) :: secs), (s :: ss), rest'. split; [now apply ls_section with (r := rest)|].
          split; [constructor; auto; exists k; cbn [fst snd]; rewrite (body_reads_name _ _ _ _ R); auto|].
          replace (n0 + N.of_nat (length ((64 :: t, body) :: secs))) with (n0 + 1 + N.of_nat (length secs)) by (cbn [length]; lia). auto.
        * apply (Stop ((64 :: t) :: body ++ bad :: rest)); auto. right. exists (Some e). eapply lst_body; eauto. apply (body_reads_ok nm); eauto.
      + unfold head_kind in HK. apply (Stop ((64 :: t) :: r)); auto. right. destruct (pool_kind (64 :: t)) as [[k len]|] eqn:P.
        * apply pool_kind_some in P as (suf & x & Hi & -> & E). destruct (pool_header_split _ _ _ _ Hi E) as [mid ->]. exists None. rewrite E. apply (lst_cut n0 r k suf mid); auto.
          intros (nm & c & -> & Hc). rewrite E in HK. cbn [app] in HK. rewrite (proj2 (header_name_ok_iff (nm ++ [c]) suf nm)) in HK by eauto. discriminate.
        * exists (Some (LHeader n0 NoContainerName)). destruct (container_header_parse (64 :: t)) as [c|e|] eqn:C; [discriminate| |destruct (container_header_nopanic _ C)].
          apply container_header_err in C as [[H _]|(_ & H & ->)]; [now destruct (H t)|]. apply lst_name; auto. now apply pool_kind_none. }
  eapply G. reflexivity.
Qed.
Lemma logic_parse_run mv s : logic_parse mv s = logic_run mv (split_on NL s) 0 []. Proof. reflexivity. Qed.
Lemma logic_parse_ok mv s m : logic_parse mv s = Ok m <->
  exists secs rest ss, logic_sections_of (split_on NL s) secs rest /\ no_header rest /\ Forall2 sec_reads secs ss /\ m = fold_left (s_apply mv) ss [].
Proof.
  rewrite logic_parse_run. split.
  - intros H. destruct (logic_progress (split_on NL s) 0) as (secs & ss & rest & L & F & K). exists secs, rest, ss. split; auto.
    rewrite (logic_run_run mv _ _ _ _ L F) in H. destruct K as [K|[o K]].
    + rewrite logic_no_header_run in H by auto. injection H as <-. auto.
    + rewrite (logic_stop_run mv _ _ _ _ K) in H. destruct o; discriminate.
  - intros (secs & rest & ss & L & K & F & ->). rewrite (logic_run_run mv _ _ _ _ L F). now apply logic_no_header_run.
Qed.
Lemma logic_parse_stop mv s o : logic_parse mv s = match o with Some e => Err e | None => Panic end <->
  exists secs rest ss, logic_sections_of (split_on NL s) secs rest /\ Forall2 sec_reads secs ss /\ logic_stop (N.of_nat (length secs)) rest o.
Proof.
  rewrite logic_parse_run. split.
  - intros H. destruct (logic_progress (split_on NL s) 0) as (secs & ss & rest & L & F & K). exists secs, rest, ss. split; auto. split; auto.
    rewrite (logic_run_run mv _ _ _ _ L F) in H. destruct K as [K|[o' K]].
    + rewrite logic_no_header_run in H by auto. destruct o; discriminate.
    + rewrite (logic_stop_run mv _ _ _ _ K) in H. rewrite N.add_0_l in K. destruct o, o'; try discriminate; auto. injection H as ->. auto.
  - intros (secs & rest & ss & L & F & K). rewrite (logic_run_run mv _ _ _ _ L F). now apply logic_stop_run.
Qed.

(** ** the screens *)
Lemma selects_fun {A B} (R : A -> B -> Prop) l m m' : (forall a b b', R a b -> R a b' -> b = b') -> selects R l m -> selects R l m' -> m = m'.
Proof.
  intros H S. revert m'. induction S as [|a b l m Rab S IH|a l m N S IH]; intros m' S'; inversion S' as [|a' b' l' n' Rab' S2|a' l' n' N' S2]; subst; auto.
  - f_equal; eauto.
  - now destruct (N' b).
  - now destruct (N b').
Qed.
Lemma selects_of {A B C} (R : A -> B -> Prop) (G : A -> C -> Prop) (f : C -> option B) l cs : Forall2 G l cs ->
  (forall a c, G a c -> match f c with Some b => R a b | None => forall b, ~ R a b end) ->
  selects R l (flat_map (fun c => match f c with Some b => [b] | None => [] end) cs).
Proof.
  intros F H. induction F as [|a c l cs g F IH]; [constructor|]. cbn [flat_map]. specialize (H a c g). destruct (f c) as [b|]; cbn [app]; now constructor.
Qed.
Lemma all_parse_fun {E A} (p : str -> res E A) body xs ys : all_parse p body xs -> all_parse p body ys -> xs = ys.
Proof. intros F. revert ys. induction F as [|l x body xs H F IH]; intros ys G; inversion G; subst; auto. f_equal; [congruence|auto]. Qed.
Lemma pool_read_fun {E A} (p : str -> res E A) f body m m' : pool_read p f body m -> pool_read p f body m' -> m = m'.
Proof. intros (xs & F & ->) (ys & G & ->). now rewrite (all_parse_fun _ _ _ _ F G). Qed.
Lemma last_section_fun {A} secs nm k (R : list str -> A -> Prop) o o' : (forall b x y, R b x -> R b y -> x = y) ->
  last_section secs nm k R o -> last_section secs nm k R o' -> o = o'.
Proof.
  intros H (ps & S & ->) (qs & T & ->). f_equal. eapply selects_fun; [|exact S|exact T]. intros hb b b' [_ H1] [_ H2]. eauto.
Qed.
Lemma screen_of_fun secs nm x y : screen_of secs nm x -> screen_of secs nm y -> x = y.
Proof.
  intros [A1 A2 A3 A4 A5 A6 (cs & A7 & A8)] [B1 B2 B3 B4 B5 B6 (ds & B7 & B8)]. destruct x, y. cbn in *. subst. f_equal.
  - f_equal. eapply selects_fun; [|exact A7|exact B7]. intros hb [c b] [c' b'] [H1 H2] [H3 H4]. cbn [fst snd] in *.
    destruct (header_names_fun _ _ _ _ _ H1 H3) as [_ E]. f_equal; [congruence|]. eapply all_parse_fun; eauto.
  - eapply last_section_fun; [|exact A2|exact B2]. apply pool_read_fun.
  - eapply last_section_fun; [|exact A3|exact B3]. apply pool_read_fun.
  - eapply last_section_fun; [|exact A4|exact B4]. apply all_parse_fun.
  - eapply last_section_fun; [|exact A5|exact B5]. apply all_parse_fun.
  - eapply last_section_fun; [|exact A6|exact B6]. apply pool_read_fun.
Qed.
Definition pick_var nm (s : sect) := match s with SVar n p => if str_eqb nm n then Some p else None | _ => None end.
Definition pick_list nm (s : sect) := match s with SList n p => if str_eqb nm n then Some p else None | _ => None end.
Definition pick_comp nm (s : sect) := match s with SComp n p => if str_eqb nm n then Some p else None | _ => None end.
Definition pick_ev nm (s : sect) := match s with SEv n p => if str_eqb nm n then Some p else None | _ => None end.
Definition pick_mb nm (s : sect) := match s with SMb n p => if str_eqb nm n then Some p else None | _ => None end.
Definition pick_blk nm (s : sect) := match s with SBlk n c b => if str_eqb nm n then Some (c, b) else None | _ => None end.
Definition pick {B} (f : sect -> option B) (ss : list sect) : list B := flat_map (fun s => match f s with Some b => [b] | None => [] end) ss.
Lemma last_of_snoc {A} (l : list A) x : last_of (l ++ [x]) = Some x.
Proof. unfold last_of. rewrite map_app. apply last_last. Qed.
Lemma pick_snoc {B} (f : sect -> option B) ss s : pick f (ss ++ [s]) = pick f ss ++ match f s with Some b => [b] | None => [] end.
Proof. unfold pick. rewrite flat_map_app. cbn [flat_map]. now rewrite app_nil_r. Qed.
Definition sections_screen (nm : str) (ss : list sect) : screen_logic :=
  {| sl_name := nm; sl_block_containers := keep_last (pick (pick_blk nm) ss); sl_variables := last_of (pick (pick_var nm) ss);
     sl_list_variables := last_of (pick (pick_list nm) ss); sl_components := last_of (pick (pick_comp nm) ss);
     sl_events := last_of (pick (pick_ev nm) ss); sl_more_blocks := last_of (pick (pick_mb nm) ss) |}.
Lemma keep_last_snoc {A} (l : list (str * A)) c b : keep_last (l ++ [(c, b)]) = sinsert c b (keep_last l).
Proof. rewrite <- !keep_last_fold, fold_left_app. reflexivity. Qed.
Lemma build_sections nm ss : build (named nm ss) (screen_new_empty nm) = sections_screen nm ss.
Proof.
  induction ss as [|s ss IH] using rev_ind; [reflexivity|]. rewrite named_app, build_app, IH. unfold named. cbn [filter].
  unfold sections_screen. rewrite !pick_snoc.
  destruct s as [n p|n p|n p|n p|n p|n c p]; cbn [s_name pick_var pick_list pick_comp pick_ev pick_mb pick_blk]; destruct (str_eqb nm n);
    rewrite ?app_nil_r, ?last_of_snoc, ?keep_last_snoc; reflexivity.
Qed.
Lemma sections_screen_of secs ss nm : Forall2 sec_reads secs ss -> screen_of secs nm (sections_screen nm ss).
Proof.
  intros F. assert (K : forall hb s nm' k, sec_reads hb s -> header_names (fst hb) nm' k -> s_name s = nm' /\ body_reads nm' k (snd hb) s).
  { intros hb s nm' k (k' & H1 & H2) H. destruct (header_names_fun _ _ _ _ _ H1 H) as [<- <-]. auto. }
  split; cbn [sl_name sl_variables sl_list_variables sl_components sl_events sl_more_blocks sl_block_containers]; [reflexivity| | | | | |].
  1-5: eexists; split; [|reflexivity]; eapply selects_of; [exact F|]; intros hb s G.
  6: eexists; split; [|reflexivity]; eapply selects_of; [exact F|]; intros hb s G.
  - destruct s as [n p|n p|n p|n p|n p|n c p]; cbn [pick_var]; try (intros q [H _]; destruct (K _ _ _ _ G H) as [_ B]; inversion B; fail).
    destruct (str_eqb_spec nm n) as [->|D]; [|intros q [H _]; destruct (K _ _ _ _ G H) as [E _]; cbn in E; congruence].
    destruct G as (k & H & B). cbn [s_name] in *. inversion B; subst. split; auto. exists xs; split; auto.
  - destruct s as [n p|n p|n p|n p|n p|n c p]; cbn [pick_list]; try (intros q [H _]; destruct (K _ _ _ _ G H) as [_ B]; inversion B; fail).
    destruct (str_eqb_spec nm n) as [->|D]; [|intros q [H _]; destruct (K _ _ _ _ G H) as [E _]; cbn in E; congruence].
    destruct G as (k & H & B). cbn [s_name] in *. inversion B; subst. split; auto. exists xs; split; auto.
  - destruct s as [n p|n p|n p|n p|n p|n c p]; cbn [pick_comp]; try (intros q [H _]; destruct (K _ _ _ _ G H) as [_ B]; inversion B; fail).
    destruct (str_eqb_spec nm n) as [->|D]; [|intros q [H _]; destruct (K _ _ _ _ G H) as [E _]; cbn in E; congruence].
    destruct G as (k & H & B). cbn [s_name] in *. inversion B; subst. split; auto.
  - destruct s as [n p|n p|n p|n p|n p|n c p]; cbn [pick_ev]; try (intros q [H _]; destruct (K _ _ _ _ G H) as [_ B]; inversion B; fail).
    destruct (str_eqb_spec nm n) as [->|D]; [|intros q [H _]; destruct (K _ _ _ _ G H) as [E _]; cbn in E; congruence].
    destruct G as (k & H & B). cbn [s_name] in *. inversion B; subst. split; auto.
  - destruct s as [n p|n p|n p|n p|n p|n c p]; cbn [pick_mb]; try (intros q [H _]; destruct (K _ _ _ _ G H) as [_ B]; inversion B; fail).
    destruct (str_eqb_spec nm n) as [->|D]; [|intros q [H _]; destruct (K _ _ _ _ G H) as [E _]; cbn in E; congruence].
    destruct G as (k & H & B). cbn [s_name] in *. inversion B; subst. split; auto. exists xs; split; auto.
  - destruct s as [n p|n p|n p|n p|n p|n c p]; cbn [pick_blk]; try (intros [c' q] [H _]; destruct (K _ _ _ _ G H) as [_ B]; inversion B; fail).
    destruct (str_eqb_spec nm n) as [->|D]; [|intros [c' q] [H _]; destruct (K _ _ _ _ G H) as [E _]; cbn in E; congruence].
    destruct G as (k & H & B). cbn [s_name] in *. inversion B; subst. split; auto.
Qed.
Lemma nodup_snoc_last ns k : nodup str_dec (ns ++ [k]) = kremove k (nodup str_dec ns) ++ [k].
Proof.
  induction ns as [|n ns IH]; [reflexivity|]. cbn [app nodup]. destruct (in_dec str_dec n ns) as [H|H].
  - destruct (in_dec str_dec n (ns ++ [k])) as [_|H']; [exact IH|]. exfalso. apply H'. apply in_or_app. now left.
  - destruct (in_dec str_dec n (ns ++ [k])) as [H'|H'].
    + apply in_app_or in H' as [H'|[->|[]]]; [contradiction|]. cbn [kremove]. rewrite str_eqb_refl. exact IH.
    + cbn [kremove]. destruct (str_eqb_spec k n) as [->|D]; [exfalso; apply H'; apply in_or_app; right; now left|]. cbn [app]. now rewrite IH.
Qed.
Lemma smem_in k (m : logic) : smem k m = true <-> In k (map fst m).
Proof.
  unfold smem, lmem. fold (@sget screen_logic k m). destruct (sget k m) as [x|] eqn:E.
  - split; auto. intros _. apply sget_some_in in E. now apply (in_map fst) in E.
  - split; [discriminate|]. intros H. now apply sget_none_notin in E.
Qed.
Lemma fold_keys mv ss : map fst (fold_left (s_apply mv) ss []) = if mv then by_last (map s_name ss) else by_first (map s_name ss).
Proof.
  induction ss as [|s ss IH] using rev_ind; [destruct mv; reflexivity|]. rewrite fold_left_app. cbn [fold_left]. unfold s_apply at 1.
  rewrite map_app. cbn [map]. destruct mv.
  - rewrite entry_keys_true, IH. unfold by_last. now rewrite nodup_snoc_last.
  - rewrite entry_keys_false. set (m := fold_left (s_apply false) ss []) in *. unfold by_first. rewrite rev_unit. cbn [nodup].
    assert (I : In (s_name s) (map fst m) <-> In (s_name s) (rev (map s_name ss))).
    { rewrite IH. unfold by_first. rewrite <- in_rev, nodup_In. reflexivity. }
    pose proof (smem_in (s_name s) m) as SM. destruct (in_dec str_dec (s_name s) (rev (map s_name ss))) as [H|H]; destruct (smem (s_name s) m).
    + exact IH.
    + exfalso. assert (false = true) by tauto. discriminate.
    + exfalso. tauto.
    + cbn [rev]. now rewrite IH.
Qed.
Lemma sec_reads_names secs ss : Forall2 sec_reads secs ss -> Forall2 (fun hb n => exists k, header_names (fst hb) n k) secs (map s_name ss).
Proof. induction 1 as [|hb s secs ss (k & H & _) F IH]; constructor; eauto. Qed.
Lemma logic_of_fold mv secs ss : Forall2 sec_reads secs ss -> logic_of mv secs (fold_left (s_apply mv) ss []).
Proof.
  intros F. split.
  - exists (map s_name ss). split; [now apply sec_reads_names|apply fold_keys].
  - intros nm x H. assert (N : NoDup (map fst (fold_left (s_apply mv) ss []))) by (apply fold_nodup; constructor).
    apply sget_in in H; [|exact N]. rewrite fold_get in H. destruct (named nm ss) as [|s r] eqn:E; [discriminate|].
    rewrite <- E in H. cbn [or_empty sget lget] in H. rewrite build_sections in H. injection H as <-. now apply sections_screen_of.
Qed.
Lemma names_fun secs ns ns' : Forall2 (fun (hb : str * list str) n => exists k, header_names (fst hb) n k) secs ns ->
  Forall2 (fun (hb : str * list str) n => exists k, header_names (fst hb) n k) secs ns' -> ns = ns'.
Proof.
  intros F. revert ns'. induction F as [|hb n secs ns [k H] F IH]; intros ns' G; inversion G as [|? n' ? ns2 [k' H'] G']; subst; auto.
  f_equal; [|auto]. now destruct (header_names_fun _ _ _ _ _ H H').
Qed.
Lemma by_nodup mv ns : NoDup (if mv : bool then by_last ns else by_first ns).
Proof. destruct mv; [apply NoDup_nodup|apply NoDup_rev, NoDup_nodup]. Qed.
Lemma logic_of_fun mv secs m m' : logic_of mv secs m -> logic_of mv secs m' -> m = m'.
Proof.
  intros [(ns & F & K) H] [(ns' & F' & K') H']. rewrite (names_fun _ _ _ F' F) in K'. clear F F' ns'.
  assert (N : NoDup (map fst m)) by (rewrite K; apply by_nodup). assert (N' : NoDup (map fst m')) by (rewrite K'; apply by_nodup).
  apply smap_ext; [auto|congruence|]. intros k. destruct (sget k m) as [x|] eqn:E.
  - apply sget_some_in in E. symmetry. apply sget_in; auto.
    assert (I : In k (map fst m')) by (rewrite K', <- K; exact (in_map fst _ _ E)). apply in_map_iff in I as ([k' y] & Ek & I). cbn in Ek. subst k'.
    now rewrite (screen_of_fun _ _ _ _ (H _ _ E) (H' _ _ I)).
  - symmetry. destruct (sget k m') as [y|] eqn:E'; auto. apply sget_some_in in E'. exfalso. apply sget_none_notin in E. apply E.
    rewrite K, <- K'. exact (in_map fst _ _ E').
Qed.
Lemma sections_read secs : Forall section_ok secs <-> exists ss, Forall2 sec_reads secs ss.
Proof.
  split.
  - induction 1 as [|hb secs (nm & k & H & B) _ [ss IH]]; [exists []; constructor|]. apply (body_reads_ok nm) in B as [s B]. exists (s :: ss). constructor; auto.
    exists k. now rewrite (body_reads_name _ _ _ _ B).
  - intros [ss F]. induction F as [|hb s secs ss (k & H & B) F IH]; constructor; auto. exists (s_name s), k. split; auto. apply (body_reads_ok (s_name s)). eauto.
Qed.
Theorem logic_exact_ok mv s m : logic_parse mv s = Ok m <->
  exists secs rest, logic_sections_of (split_on NL s) secs rest /\ no_header rest /\ Forall section_ok secs /\ logic_of mv secs m.
Proof.
  rewrite logic_parse_ok. split.
  - intros (secs & rest & ss & L & K & F & ->). exists secs, rest. split; auto. split; auto. split; [apply sections_read; eauto|now apply logic_of_fold].
  - intros (secs & rest & L & K & S & M). apply sections_read in S as [ss F]. exists secs, rest, ss. split; auto. split; auto. split; auto.
    eapply logic_of_fun; [exact M|now apply logic_of_fold].
Qed.
Theorem logic_exact_stop mv s o : logic_parse mv s = match o with Some e => Err e | None => Panic end <->
  exists secs rest, logic_sections_of (split_on NL s) secs rest /\ Forall section_ok secs /\ logic_stop (N.of_nat (length secs)) rest o.
Proof.
  rewrite logic_parse_stop. split.
  - intros (secs & rest & ss & L & F & K). exists secs, rest. split; auto. split; auto. apply sections_read; eauto.
  - intros (secs & rest & L & S & K). apply sections_read in S as [ss F]. exists secs, rest, ss. auto.
Qed.
