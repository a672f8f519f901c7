(** Proofs about what the readers of the data files make of each line. *)
From Coq Require Import Sorted.
From Verif Require Import Base Spec Str SpecLines SpecReading.

(** ** [file] and [resource] *)
Section Scan.
  Variable hs : list str.
  Definition is_hd (l : str) : bool := existsb (str_eqb l) hs.
  Lemma is_hd_in l : is_hd l = true <-> In l hs.
  Proof.
    unfold is_hd. rewrite existsb_exists. split.
    - intros (x & Hx & E). apply str_eqb_eq in E. now subst.
    - intros H. exists l. split; auto. apply str_eqb_refl.
  Qed.
  Lemma is_hd_not l : is_hd l = false <-> ~ In l hs.
  Proof. rewrite <- is_hd_in. destruct (is_hd l); split; congruence. Qed.
  (** the item lines that are looked at, with their numbers and headers *)
  Fixpoint scan (cur : option str) (n : nat) (lines : list str) : list (nat * str * str) :=
    match lines with
    | [] => []
    | l :: r =>
      if is_hd l then scan (Some l) (S n) r
      else match cur with
           | None => scan None (S n) r
           | Some h => match l with [] => [] | _ => (n, h, l) :: scan cur (S n) r end
           end
    end.
  Definition cur_ok (pre : list str) (cur : option str) : Prop :=
    match cur with
    | None => forall l, In l pre -> ~ In l hs
    | Some h => governs hs pre (length pre) h
    end.
  Lemma governs_app pre suf i h : (i <= length pre)%nat -> governs hs (pre ++ suf) i h <-> governs hs pre i h.
  Proof.
    intros L. split; intros (j & Hj & E & Hh & K); exists j; (split; [exact Hj|]).
    - rewrite nth_error_app1 in E by lia. repeat split; auto. intros k l Hk El. apply (K k l Hk). rewrite nth_error_app1 by lia. exact El.
    - repeat split; auto.
      + rewrite nth_error_app1 by lia. exact E.
      + intros k l Hk El. rewrite nth_error_app1 in El by lia. exact (K k l Hk El).
  Qed.
  Lemma governs_det lines i h h' : governs hs lines i h -> governs hs lines i h' -> h = h'.
  Proof.
    intros (j & Hj & E & Hh & K) (j' & Hj' & E' & Hh' & K').
    destruct (Nat.lt_trichotomy j j') as [L|[->|L]].
    - exfalso. apply (K j' h'); auto. 
    - congruence.
    - exfalso. apply (K' j h); auto.
  Qed.
  Lemma cur_step_head pre l : In l hs -> cur_ok (pre ++ [l]) (Some l).
  Proof.
    intros H. exists (length pre). rewrite app_length. cbn [length]. split; [lia|]. split.
    - rewrite nth_error_app2, Nat.sub_diag by lia. reflexivity.
    - split; auto. intros k l' Hk. lia.
  Qed.
  Lemma cur_step_other pre l cur : ~ In l hs -> cur_ok pre cur -> cur_ok (pre ++ [l]) cur.
  Proof.
    intros H. destruct cur as [h|]; cbn [cur_ok].
    - intros (j & Hj & E & Hh & K). exists j. rewrite app_length. cbn [length]. split; [lia|]. split.
      + rewrite nth_error_app1 by lia. exact E.
      + split; auto. intros k l' Hk El. destruct (Nat.lt_ge_cases k (length pre)).
        * rewrite nth_error_app1 in El by lia. apply (K k l'); [lia|exact El].
        * rewrite nth_error_app2 in El by lia. assert (k - length pre = 0)%nat as Z by lia. rewrite Z in El. injection El as <-. exact H.
    - intros K l' Hl. apply in_app_or in Hl as [Hl|[<-|[]]]; auto.
  Qed.
  Lemma cur_governs pre cur h suf : cur_ok pre cur -> governs hs (pre ++ suf) (length pre) h -> cur = Some h.
  Proof.
    intros C G. rewrite (governs_app pre suf) in G by lia. destruct cur as [h'|]; cbn [cur_ok] in C.
    - f_equal. eapply governs_det; eassumption.
    - exfalso. destruct G as (j & Hj & E & Hh & _). apply (C h); auto. eapply nth_error_In; eassumption.
  Qed.
  Lemma nth_mid {A} (pre suf : list A) l : nth_error (pre ++ l :: suf) (length pre) = Some l.
  Proof. rewrite nth_error_app2, Nat.sub_diag by lia. reflexivity. Qed.
  Lemma scan_spec suf : forall pre cur, cur_ok pre cur -> reached hs (pre ++ suf) (length pre) ->
    forall i h l, In (i, h, l) (scan cur (length pre) suf) <-> (length pre <= i)%nat /\ read_line hs (pre ++ suf) i h l.
  Proof.
    induction suf as [|s suf IH]; intros pre cur C R i h l; cbn [scan].
    - split; [intros []|]. intros (L & (E & _ & G) & _). rewrite app_nil_r in E. assert (nth_error pre i <> None) as E' by congruence. apply nth_error_Some in E'. lia.
    - assert (P : pre ++ s :: suf = (pre ++ [s]) ++ suf) by now rewrite <- app_assoc.
      assert (LP : length (pre ++ [s]) = S (length pre)) by (rewrite app_length; cbn; lia).
      destruct (is_hd s) eqn:H.
      + apply is_hd_in in H. rewrite P in *. rewrite <- LP. rewrite IH; [|now apply cur_step_head|].
        * rewrite LP. split; intros [L Q]; (split; [|exact Q]); [lia|].
          destruct (Nat.eq_dec i (length pre)) as [->|]; [|lia]. exfalso. destruct Q as ((E & N & _) & _).
          rewrite <- P, nth_mid in E. injection E as <-. auto.
        * rewrite LP. intros j h' Hj Q. destruct (Nat.eq_dec j (length pre)) as [->|]; [|apply (R j h'); auto; lia].
          destruct Q as (E & N & _). rewrite <- P, nth_mid in E. injection E as ->. auto.
      + apply is_hd_not in H. destruct cur as [hc|].
        * destruct s as [|c s].
          -- split; [intros []|]. intros (L & Q & Hl & Rq). exfalso.
             assert (B : item_line hs (pre ++ [] :: suf) (length pre) hc []).
             { split; [apply nth_mid|]. split; auto. apply governs_app; [lia|exact C]. }
             destruct (Nat.eq_dec i (length pre)) as [->|].
             ++ destruct Q as (E & _). rewrite nth_mid in E. congruence.
             ++ apply (Rq (length pre) hc); auto. lia.
          -- cbn [In].
             assert (B : item_line hs (pre ++ (c :: s) :: suf) (length pre) hc (c :: s)).
             { split; [apply nth_mid|]. split; auto. apply governs_app; [lia|exact C]. }
             assert (R' : reached hs ((pre ++ [c :: s]) ++ suf) (length (pre ++ [c :: s]))).
             { rewrite LP, <- P. intros j h' Hj Q. destruct (Nat.eq_dec j (length pre)) as [->|]; [|apply (R j h'); auto; lia].
               destruct Q as (E & _). rewrite nth_mid in E. discriminate. }
             specialize (IH (pre ++ [c :: s]) (Some hc)). rewrite LP in IH. rewrite IH; auto; [|now apply cur_step_other|rewrite <- LP; auto].
             rewrite <- P. split.
             ++ intros [E|[L Q]]; [|split; [lia|auto]]. injection E as <- <- <-. split; [lia|]. split; [exact B|]. split; [discriminate|exact R].
             ++ intros [L Q]. destruct (Nat.eq_dec i (length pre)) as [->|]; [left|right; split; [lia|auto]].
                destruct Q as ((E & N & G) & _). rewrite nth_mid in E. injection E as <-.
                assert (hc = h) as -> by (destruct B as (_ & _ & G'); eapply governs_det; eassumption). reflexivity.
        * assert (R' : reached hs ((pre ++ [s]) ++ suf) (length (pre ++ [s]))).
          { rewrite LP, <- P. intros j h' Hj Q. destruct (Nat.eq_dec j (length pre)) as [->|]; [|apply (R j h'); auto; lia].
            destruct Q as (E & _ & G). now apply (cur_governs _ None) in G. }
          specialize (IH (pre ++ [s]) None). rewrite LP in IH. rewrite IH; auto; [|now apply cur_step_other|rewrite <- LP; auto].
          rewrite <- P. split; intros [L Q]; (split; [|auto]); [lia|].
          destruct (Nat.eq_dec i (length pre)) as [->|]; [|lia]. exfalso. destruct Q as ((_ & _ & G) & _). now apply (cur_governs _ None) in G.
  Qed.
  Lemma scan_in lines i h l : In (i, h, l) (scan None 0 lines) <-> read_line hs lines i h l.
  Proof.
    rewrite (scan_spec lines [] None); cbn [length app].
    - split; [tauto|]. split; [lia|auto].
    - intros x [].
    - intros j h' Hj. lia.
  Qed.
  Lemma scan_ge cur n lines i h l : In (i, h, l) (scan cur n lines) -> (n <= i)%nat.
  Proof.
    revert cur n. induction lines as [|s lines IH]; intros cur n; cbn [scan]; [intros []|].
    destruct (is_hd s); [intros H; apply IH in H; lia|]. destruct cur as [hc|]; [|intros H; apply IH in H; lia].
    destruct s; [intros []|]. intros [E|H]; [injection E; lia|apply IH in H; lia].
  Qed.
  Lemma scan_sorted cur n lines : StronglySorted lt (map (fun q => fst (fst q)) (scan cur n lines)).
  Proof.
    revert cur n. induction lines as [|s lines IH]; intros cur n; cbn [scan]; [constructor|].
    destruct (is_hd s); auto. destruct cur as [hc|]; auto. destruct s; [constructor|]. cbn [map fst]. constructor; auto.
    apply Forall_map, Forall_forall. intros [[i h] l] H. apply scan_ge in H. cbn. lia.
  Qed.
End Scan.

Lemma sorted_unique (a b : list nat) : StronglySorted lt a -> StronglySorted lt b -> (forall i, In i a <-> In i b) -> a = b.
Proof.
  intros Sa. revert b. induction Sa as [|x a Sa IH Fx]; intros b Sb E.
  - destruct b as [|y b]; [reflexivity|]. destruct (proj2 (E y)). now left.
  - destruct Sb as [|y b Sb Fy]; [destruct (proj1 (E x)); now left|]. rewrite Forall_forall in Fx, Fy.
    assert (x = y) as ->.
    { destruct (proj1 (E x) (or_introl eq_refl)) as [|Hx]; auto. destruct (proj2 (E y) (or_introl eq_refl)) as [|Hy]; auto.
      specialize (Fx _ Hy). specialize (Fy _ Hx). lia. }
    f_equal. apply IH; auto. intros i. split; intros H.
    + destruct (proj1 (E i) (or_intror H)) as [<-|]; auto. specialize (Fx _ H). lia.
    + destruct (proj2 (E i) (or_intror H)) as [<-|]; auto. specialize (Fy _ H). lia.
Qed.
Section Items.
  Context {A : Type} (parse : str -> option A) (hs : list str).
  Definition bad_item (q : nat * str * str) : bool := match parse (snd q) with None => true | Some _ => false end.
  Definition pick (h : str) (sc : list (nat * str * str)) : list A :=
    flat_map (fun q => if str_eqb h (snd (fst q)) then match parse (snd q) with Some x => [x] | None => [] end else []) sc.
  Lemma pick_cons h i h' l sc : pick h ((i, h', l) :: sc) =
    (if str_eqb h h' then match parse l with Some x => [x] | None => [] end else []) ++ pick h sc.
  Proof. reflexivity. Qed.
  Lemma find_sorted sc i h l : StronglySorted lt (map (fun q => fst (fst q)) sc) ->
    find bad_item sc = Some (i, h, l) <-> In (i, h, l) sc /\ parse l = None /\ forall j h' l', (j < i)%nat -> In (j, h', l') sc -> parse l' <> None.
  Proof.
    induction sc as [|[[j hj] lj] sc IH]; cbn [map fst find]; intros S; [split; [discriminate|intros ([] & _)]|].
    inversion S as [|? ? S' F]; subst. rewrite Forall_map, Forall_forall in F. unfold bad_item at 1. cbn [snd].
    destruct (parse lj) as [x|] eqn:E.
    - rewrite IH by auto. cbn [In]. split.
      + intros (H & N & K). split; [auto|]. split; [auto|]. intros k hk lk Hk [Q|Q]; [injection Q as <- <- <-; congruence|eauto].
      + intros ([Q|H] & N & K); [injection Q as <- <- <-; congruence|]. eauto 10.
    - split.
      + intros [= <- <- <-]. split; [now left|]. split; auto. intros k hk lk Hk [Q|Q]; [injection Q; lia|]. specialize (F _ Q). cbn in F. lia.
      + intros ([Q|H] & N & K); [congruence|]. exfalso. specialize (F _ H). cbn in F. exact (K j hj lj F (or_introl eq_refl) E).
  Qed.
  Lemma find_first_bad lines i h l : find bad_item (scan hs None 0 lines) = Some (i, h, l) <-> first_bad hs lines parse i h l.
  Proof.
    rewrite find_sorted by apply scan_sorted. unfold first_bad. rewrite scan_in. split; intros (H & N & K); (split; [auto|]); (split; [auto|]);
      intros j h' l' Hj Q; apply (K j h' l' Hj); now apply scan_in.
  Qed.
  Lemma section_items_pick lines h : find bad_item (scan hs None 0 lines) = None -> section_items hs lines parse h (pick h (scan hs None 0 lines)).
  Proof.
    intros N. set (sc := scan hs None 0 lines) in *.
    exists (map (fun q => fst (fst q)) (filter (fun q => str_eqb h (snd (fst q))) sc)).
    assert (B : forall q, In q sc -> parse (snd q) <> None).
    { intros q Hq E. pose proof (find_none _ _ N q Hq) as Q. unfold bad_item in Q. rewrite E in Q. discriminate. }
    split; [|split].
    - pose proof (scan_sorted hs None 0 lines) as S. fold sc in S. clear -S. induction sc as [|q sc IH]; [constructor|].
      cbn [map] in S. inversion S as [|? ? S' F]; subst. cbn [filter]. destruct (str_eqb h (snd (fst q))); auto.
      cbn [map]. constructor; auto. rewrite Forall_forall in *. intros x Hx. apply F. apply in_map_iff in Hx as (y & <- & Hy).
      apply filter_In in Hy as [Hy _]. exact (in_map (fun q => fst (fst q)) _ _ Hy).
    - intros i. rewrite in_map_iff. split.
      + intros ([[j h'] l] & <- & Hq). apply filter_In in Hq as [Hq E]. cbn [fst snd] in *. apply str_eqb_eq in E. subst h'.
        exists l. now apply scan_in.
      + intros (l & R). exists (i, h, l). split; auto. apply filter_In. split; [now apply scan_in|]. cbn. apply str_eqb_refl.
    - assert (G : forall q, In q sc -> nth_error lines (fst (fst q)) = Some (snd q)).
      { intros [[i h'] l] Hq. apply scan_in in Hq as ((E & _) & _). exact E. }
      clearbody sc. clear N. induction sc as [|[[j hj] lj] sc IH]; [constructor|]. rewrite pick_cons. cbn [filter fst snd].
      destruct (str_eqb h hj).
      + pose proof (B _ (or_introl eq_refl)) as Bq. pose proof (G _ (or_introl eq_refl)) as Gq. cbn [fst snd] in *.
        destruct (parse lj) as [x|] eqn:E; [|congruence]. cbn [map app fst]. constructor; [eauto|]. apply IH; intros q Hq; [apply B|apply G]; now right.
      + apply IH; intros q Hq; [apply B|apply G]; now right.
  Qed.
  Lemma section_items_det lines h xs ys : section_items hs lines parse h xs -> section_items hs lines parse h ys -> xs = ys.
  Proof.
    intros (is & S & I & F) (js & S' & J & G). assert (is = js) as <-.
    { apply sorted_unique; auto. intros i. now rewrite I, J. }
    clear S S' I J. revert ys G. induction F as [|i x is xs (l & E & P) F IH]; intros ys G; inversion G as [|? y ? ys' (l' & E' & P') G']; subst; auto.
    f_equal; [congruence|auto].
  Qed.
  Lemma section_items_good lines : (forall h, In h hs -> exists xs, section_items hs lines parse h xs) -> find bad_item (scan hs None 0 lines) = None.
  Proof.
    intros H. destruct (find bad_item (scan hs None 0 lines)) as [[[i h] l]|] eqn:E; auto. exfalso. apply find_first_bad in E as (R & N & _).
    assert (Hh : In h hs) by (destruct R as ((_ & _ & (j & _ & _ & Hh & _)) & _); auto).
    destruct (H h Hh) as (xs & is & _ & I & F). assert (Hi : In i is) by (apply I; eauto).
    apply In_nth_error in Hi as [k Hk]. destruct R as ((El & _) & _).
    clear -F Hk El N. revert k Hk. induction F as [|j x is xs (l' & E & P) F IH]; intros k Hk; [destruct k; discriminate|].
    destruct k as [|k]; [injection Hk as ->; congruence|eauto].
  Qed.
End Items.

From Verif Require Import M_File M_Resource.
Definition fsec (s : option str) : file_section :=
  match s with None => FsNone | Some h => if str_eqb h (lit "@activity") then FsActivity else FsCustomView end.
Lemma file_loop_scan lines : forall cur acc n, (forall h, cur = Some h -> In h file_headers) ->
  file_loop lines (fsec cur) acc (N.of_nat n) =
  match find (bad_item file_item_parse) (scan file_headers cur n lines) with
  | Some (i, _, l) => Err (FileItemParseError (N.of_nat i) l)
  | None => Ok {| f_activities := f_activities acc ++ pick file_item_parse (lit "@activity") (scan file_headers cur n lines);
                  f_custom_views := f_custom_views acc ++ pick file_item_parse (lit "@customview") (scan file_headers cur n lines) |}
  end.
Proof.
  induction lines as [|l lines IH]; intros cur acc n C; cbn [file_loop scan].
  - cbn [find pick flat_map]. rewrite !app_nil_r. now destruct acc.
  - replace (N.of_nat n + 1) with (N.of_nat (S n)) by lia. unfold is_hd. cbn [existsb file_headers].
    destruct (str_eqb_spec l (lit "@activity")) as [->|H1]; [cbn [orb]; change FsActivity with (fsec (Some (lit "@activity"))); apply IH; intros h [= <-]; cbn; auto|].
    destruct (str_eqb_spec l (lit "@customview")) as [->|H2]; [cbn [orb]; change FsCustomView with (fsec (Some (lit "@customview"))); apply IH; intros h [= <-]; cbn; auto|].
    cbn [orb]. destruct cur as [h|]; [|change FsNone with (fsec None); apply IH; congruence].
    destruct (C h eq_refl) as [<-|[<-|[]]].
    + change (fsec (Some (lit "@activity"))) with FsActivity in *. cbv iota. destruct l as [|c l]; [cbn [find pick flat_map]; rewrite !app_nil_r; now destruct acc|].
      destruct (file_item_parse (c :: l)) as [it|] eqn:E.
      * change FsActivity with (fsec (Some (lit "@activity"))). rewrite IH by auto. cbn [find]. unfold bad_item at 2. cbn [snd]. rewrite E.
        destruct (find _ _) as [[[? ?] ?]|]; auto. cbn [f_activities f_custom_views]. rewrite !pick_cons. change (str_eqb (lit "@activity") (lit "@activity")) with true.
        change (str_eqb (lit "@customview") (lit "@activity")) with false. cbv iota. rewrite E. cbn [app]. now rewrite <- app_assoc.
      * cbn [find]. unfold bad_item at 1. cbn [snd]. now rewrite E.
    + change (fsec (Some (lit "@customview"))) with FsCustomView in *. cbv iota. destruct l as [|c l]; [cbn [find pick flat_map]; rewrite !app_nil_r; now destruct acc|].
      destruct (file_item_parse (c :: l)) as [it|] eqn:E.
      * change FsCustomView with (fsec (Some (lit "@customview"))). rewrite IH by auto. cbn [find]. unfold bad_item at 2. cbn [snd]. rewrite E.
        destruct (find _ _) as [[[? ?] ?]|]; auto. cbn [f_activities f_custom_views]. rewrite !pick_cons. change (str_eqb (lit "@customview") (lit "@customview")) with true.
        change (str_eqb (lit "@activity") (lit "@customview")) with false. cbv iota. rewrite E. cbn [app]. now rewrite <- app_assoc.
      * cbn [find]. unfold bad_item at 1. cbn [snd]. now rewrite E.
Qed.
Lemma file_parse_err s n l : file_parse s = Err (FileItemParseError n l) <->
  exists i h, n = N.of_nat i /\ first_bad file_headers (split_on NL s) file_item_parse i h l.
Proof.
  unfold file_parse. rewrite (file_loop_scan _ None _ 0) by discriminate. split.
  - destruct (find _ _) as [[[i h] l']|] eqn:E; [|discriminate]. intros [= <- <-]. apply find_first_bad in E. eauto.
  - intros (i & h & -> & F). apply find_first_bad in F. now rewrite F.
Qed.
Lemma file_parse_ok s f : file_parse s = Ok f <->
  section_items file_headers (split_on NL s) file_item_parse (lit "@activity") (f_activities f) /\
  section_items file_headers (split_on NL s) file_item_parse (lit "@customview") (f_custom_views f).
Proof.
  unfold file_parse. rewrite (file_loop_scan _ None _ 0) by discriminate. split.
  - destruct (find _ _) as [[[i h] l']|] eqn:E; [discriminate|]. intros [= <-]. cbn. split; now apply section_items_pick.
  - intros [A B]. assert (E : find (bad_item file_item_parse) (scan file_headers None 0 (split_on NL s)) = None).
    { apply section_items_good. intros h [<-|[<-|[]]]; eauto. }
    rewrite E. cbn. f_equal. destruct f as [fa fc]. cbn in *. f_equal; eapply section_items_det; eauto using section_items_pick.
Qed.

Definition rpick := pick resource_item_parse.
Lemma resource_loop_scan lines : forall cur acc n, (forall h, cur = Some h -> In h res_headers) ->
  resource_loop lines (rsec cur) acc (N.of_nat n) =
  match find (bad_item resource_item_parse) (scan res_headers cur n lines) with
  | Some (i, h, _) => Err (ResourceItemParseError (rsec (Some h)) (N.of_nat i))
  | None => Ok {| rs_images := rs_images acc ++ rpick (lit "@images") (scan res_headers cur n lines);
                  rs_sounds := rs_sounds acc ++ rpick (lit "@sounds") (scan res_headers cur n lines);
                  rs_fonts := rs_fonts acc ++ rpick (lit "@fonts") (scan res_headers cur n lines) |}
  end.
Proof.
  induction lines as [|l lines IH]; intros cur acc n C; cbn [resource_loop scan].
  - cbn [find rpick pick flat_map]. unfold rpick, pick. cbn [flat_map]. rewrite !app_nil_r. now destruct acc.
  - replace (N.of_nat n + 1) with (N.of_nat (S n)) by lia. unfold is_hd. cbn [existsb res_headers].
    destruct (str_eqb_spec l (lit "@images")) as [->|H1]; [cbn [orb]; change RsImages with (rsec (Some (lit "@images"))); apply IH; intros h [= <-]; cbn; auto|].
    destruct (str_eqb_spec l (lit "@sounds")) as [->|H2]; [cbn [orb]; change RsSounds with (rsec (Some (lit "@sounds"))); apply IH; intros h [= <-]; cbn; auto|].
    destruct (str_eqb_spec l (lit "@fonts")) as [->|H3]; [cbn [orb]; change RsFonts with (rsec (Some (lit "@fonts"))); apply IH; intros h [= <-]; cbn; auto|].
    cbn [orb]. destruct cur as [h|]; [|change RsNone with (rsec None); apply IH; congruence].
    assert (K : rsec (Some h) <> RsNone) by (unfold rsec; destruct (str_eqb h _); [|destruct (str_eqb h _)]; discriminate).
    destruct l as [|c l].
    + unfold rpick, pick. cbn [find flat_map]. rewrite !app_nil_r. destruct (rsec (Some h)); try congruence; now destruct acc.
    + destruct (resource_item_parse (c :: l)) as [it|] eqn:E.
      * transitivity (resource_loop lines (rsec (Some h)) (rs_push (rsec (Some h)) it acc) (N.of_nat (S n)));
          [destruct (rsec (Some h)); congruence|].
        rewrite IH by auto. cbn [find]. unfold bad_item at 2. cbn [snd]. rewrite E.
        destruct (find _ _) as [[[? ?] ?]|]; auto. unfold rpick. rewrite !pick_cons, E.
        destruct (C h eq_refl) as [<-|[<-|[<-|[]]]]; cbn [rsec rs_push];
          repeat match goal with |- context [str_eqb ?a ?b] => let r := eval vm_compute in (str_eqb a b) in change (str_eqb a b) with r end; cbv iota;
          cbn [rs_push rs_images rs_sounds rs_fonts app]; now rewrite <- app_assoc.
      * cbn [find]. unfold bad_item at 1. cbn [snd]. rewrite E. destruct (rsec (Some h)); congruence.
Qed.
Lemma resource_parse_err s sec n : resource_parse s = Err (ResourceItemParseError sec n) <->
  exists i h l, n = N.of_nat i /\ sec = rsec (Some h) /\ first_bad res_headers (split_on NL s) resource_item_parse i h l.
Proof.
  unfold resource_parse. rewrite (resource_loop_scan _ None _ 0) by discriminate. split.
  - destruct (find _ _) as [[[i h] l']|] eqn:E; [|discriminate]. intros [= <- <-]. apply find_first_bad in E. exists i, h, l'. auto.
  - intros (i & h & l & -> & -> & F). apply find_first_bad in F. now rewrite F.
Qed.
Lemma resource_parse_ok s r : resource_parse s = Ok r <->
  section_items res_headers (split_on NL s) resource_item_parse (lit "@images") (rs_images r) /\
  section_items res_headers (split_on NL s) resource_item_parse (lit "@sounds") (rs_sounds r) /\
  section_items res_headers (split_on NL s) resource_item_parse (lit "@fonts") (rs_fonts r).
Proof.
  unfold resource_parse. rewrite (resource_loop_scan _ None _ 0) by discriminate. split.
  - destruct (find _ _) as [[[i h] l']|] eqn:E; [discriminate|]. intros [= <-]. cbn. repeat split; now apply section_items_pick.
  - intros (A & B & D). assert (E : find (bad_item resource_item_parse) (scan res_headers None 0 (split_on NL s)) = None).
    { apply section_items_good. intros h [<-|[<-|[<-|[]]]]; eauto. }
    rewrite E. cbn. f_equal. destruct r as [fa fc fd]. cbn in *. f_equal; eapply section_items_det; eauto using section_items_pick.
Qed.

(** ** maps *)
Lemma fold_sinsert_keep {A} (l : list (str * A)) : forall m,
  fold_left (fun m kv => sinsert (fst kv) (snd kv) m) l m =
  filter (fun kv => negb (existsb (fun y => str_eqb (fst kv) (fst y)) l)) m ++ keep_last l.
Proof.
  induction l as [|[k v] l IH]; intros m; cbn [fold_left].
  - cbn [existsb negb keep_last]. rewrite app_nil_r. symmetry. induction m as [|x m IHm]; [reflexivity|]. cbn [filter]. now rewrite IHm.
  - rewrite IH. cbn [fst snd]. unfold sinsert, linsert. rewrite filter_app. cbn [filter keep_last fst].
    assert (E : filter (fun kv : str * A => negb (existsb (fun y => str_eqb (fst kv) (fst y)) l)) (lremove str_eqb k m) =
                filter (fun kv : str * A => negb (existsb (fun y => str_eqb (fst kv) (fst y)) ((k, v) :: l))) m).
    { induction m as [|[k' v'] m IHm]; [reflexivity|]. cbn [lremove filter existsb fst]. destruct (str_eqb_spec k k') as [->|H].
      - rewrite str_eqb_refl. cbn [orb negb]. exact IHm.
      - destruct (str_eqb_spec k' k) as [->|_]; [congruence|]. cbn [orb filter fst]. destruct (negb _); [f_equal|]; exact IHm. }
    rewrite E, <- app_assoc. f_equal. destruct (existsb _ l); reflexivity.
Qed.
Lemma keep_last_fold {A} (l : list (str * A)) : fold_left (fun m kv => sinsert (fst kv) (snd kv) m) l [] = keep_last l.
Proof. now rewrite fold_sinsert_keep. Qed.
Lemma keep_last_is_last {A} (l : list (str * A)) k v : In (k, v) (keep_last l) <-> is_last (fun y => fst y = k) l (k, v).
Proof.
  induction l as [|[k' v'] l IH]; cbn [keep_last].
  - split; [intros []|]. intros (a & b & E & _). destruct a; discriminate.
  - destruct (existsb (fun y => str_eqb k' (fst y)) l) eqn:X.
    + rewrite IH. apply existsb_exists in X as ([k2 v2] & H2 & E2). cbn in E2. apply str_eqb_eq in E2. subst k2. split.
      * intros (a & b & -> & P & N). exists ((k', v') :: a), b. auto.
      * intros (a & b & E & P & N). destruct a as [|q a].
        -- cbn in E. injection E as E1 E2 E3. subst. exfalso. exact (N _ H2 eq_refl).
        -- injection E as _ E. exists a, b. auto.
    + cbn [In]. rewrite IH. split.
      * intros [E|(a & b & -> & P & N)].
        -- injection E as -> ->. exists [], l. split; auto. split; auto. intros [k2 v2] H2 E2. cbn in E2. subst k2.
           assert (existsb (fun y => str_eqb k (fst y)) l = true); [|congruence]. apply existsb_exists. exists (k, v2). split; auto. apply str_eqb_refl.
        -- exists ((k', v') :: a), b. auto.
      * intros (a & b & E & P & N). destruct a as [|q a].
        -- cbn in E. left. congruence.
        -- right. injection E as _ E. exists a, b. auto.
Qed.

(** ** [library] *)
From Verif Require Import M_Library.
Lemma lib_slot_header h s : lib_slot_of h = Some s -> h = lib_header s.
Proof. unfold lib_slot_of. repeat match goal with |- context [str_eqb ?a ?b] => destruct (str_eqb_spec a b) end; congruence. Qed.
Lemma lib_slot_of_header s : lib_slot_of (lib_header s) = Some s.
Proof. destruct s; vm_compute; reflexivity. Qed.
Lemma lib_slot_some h : In h lib_headers <-> exists s, lib_slot_of h = Some s.
Proof.
  split.
  - intros [<-|[<-|[<-|[<-|[]]]]]; eexists; vm_compute; reflexivity.
  - intros [s E]. apply lib_slot_header in E. subst. destruct s; cbn; auto.
Qed.
Lemma lib_slot_none h : ~ In h lib_headers <-> lib_slot_of h = None.
Proof. rewrite lib_slot_some. destruct (lib_slot_of h) as [s|]; split; try congruence; [intros H; destruct H; eauto|intros _ [s E]; congruence]. Qed.
Definition lib_good (p : str * str) (q : lib_slot * library_item) : Prop := fst p = lib_header (fst q) /\ library_item_parse (snd p) = Some (snd q).
Definition lib_fold (qs : list (lib_slot * library_item)) (st : lib_state) : lib_state := fold_left (fun st q => lib_set (fst q) (snd q) st) qs st.
Lemma picks_len hs lines ps rest : library_picks hs lines ps rest -> (length rest + 2 * length ps <= length lines)%nat.
Proof. induction 1; cbn [length]; lia. Qed.
Lemma lib_run lines ps rest qs : library_picks lib_headers lines ps rest -> Forall2 lib_good ps qs -> forall st n,
  lib_loop lines st n = lib_loop rest (lib_fold qs st) (n + N.of_nat (length lines - length rest - length ps)).
Proof.
  intros P. revert qs. induction P as [rest|l r ps rest H P IH|h i r ps rest H P IH]; intros qs F st n.
  - inversion F; subst. cbn [length]. replace (N.of_nat (length rest - length rest - 0)) with 0 by lia. now rewrite N.add_0_r.
  - cbn [lib_loop]. apply lib_slot_none in H. rewrite H, (IH qs) by auto. apply picks_len in P. f_equal. cbn [length]. lia.
  - inversion F as [|? [s x] ? qs' [Eh Ei] F']; subst. cbn [fst snd] in *. subst h. cbn [lib_loop]. rewrite lib_slot_of_header, Ei.
    rewrite (IH qs') by auto. apply picks_len in P. unfold lib_fold. cbn [fold_left fst snd]. f_equal. cbn [length]. lia.
Qed.
Definition lib_stuck (rest : list str) : Prop :=
  rest = [] \/ (exists h, rest = [h] /\ In h lib_headers) \/ (exists h i r, rest = h :: i :: r /\ In h lib_headers /\ library_item_parse i = None).
Lemma lib_progress lines : exists ps qs rest, library_picks lib_headers lines ps rest /\ Forall2 lib_good ps qs /\ lib_stuck rest.
Proof.
  assert (G : forall n lines, (length lines <= n)%nat -> exists ps qs rest, library_picks lib_headers lines ps rest /\ Forall2 lib_good ps qs /\ lib_stuck rest).
  { intros n. induction n as [|n IH]; intros [|l r] L; cbn [length] in L; try lia.
    - exists [], [], []. split; [constructor|]. split; [constructor|now left].
    - exists [], [], []. split; [constructor|]. split; [constructor|now left].
    - destruct (lib_slot_of l) as [s|] eqn:S.
      + assert (Hl : In l lib_headers) by (apply lib_slot_some; eauto).
        destruct r as [|i r].
        * exists [], [], [l]. split; [constructor|]. split; [constructor|]. right. left. eauto.
        * destruct (library_item_parse i) as [x|] eqn:E.
          -- destruct (IH r) as (ps & qs & rest & P & F & K); [cbn [length] in L; lia|].
             exists ((l, i) :: ps), ((s, x) :: qs), rest. split; [now constructor|]. split; [|auto]. constructor; auto.
             split; cbn; [now apply lib_slot_header|auto].
          -- exists [], [], (l :: i :: r). split; [constructor|]. split; [constructor|]. right. right. exists l, i, r. auto.
      + destruct (IH r) as (ps & qs & rest & P & F & K); [lia|]. exists ps, qs, rest. split; [constructor; auto; now apply lib_slot_none|auto]. }
  eapply G. reflexivity.
Qed.
Definition slot_get (s : lib_slot) (st : lib_state) : option library_item :=
  match s with LFirebase => ls_firebase st | LCompat => ls_compat st | LAdmob => ls_admob st | LGoogleMap => ls_google_map st end.
Definition lib_empty : lib_state := {| ls_firebase := None; ls_compat := None; ls_admob := None; ls_google_map := None |}.
Lemma lib_fold_get s qs x : slot_get s (lib_fold qs lib_empty) = Some x <-> is_last (fun q => fst q = s) qs (s, x).
Proof.
  induction qs as [|[t y] qs IH] using rev_ind.
  - split; [destruct s; discriminate|]. intros (a & b & E & _). destruct a; discriminate.
  - unfold lib_fold. rewrite fold_left_app. cbn [fold_left fst snd]. fold (lib_fold qs lib_empty).
    assert (D : s = t \/ s <> t) by (destruct s, t; auto; right; discriminate).
    destruct D as [<-|D].
    + transitivity (y = x); [destruct s; cbn; split; congruence|]. split.
      * intros ->. exists qs, []. split; auto.
      * intros (a & b & E & P & N). destruct b as [|q b _] using rev_ind.
        -- apply app_inj_tail in E as [_ E]. congruence.
        -- rewrite app_comm_cons, app_assoc in E. apply app_inj_tail in E as [_ <-]. exfalso. apply (N (s, y)); [apply in_or_app; right; now left|reflexivity].
    + transitivity (slot_get s (lib_fold qs lib_empty) = Some x); [destruct s, t; cbn; try congruence; tauto|]. rewrite IH. split.
      * intros (a & b & -> & P & N). exists a, (b ++ [(t, y)]). split; [now rewrite <- app_assoc|]. split; auto.
        intros q Hq. apply in_app_or in Hq as [Hq|[<-|[]]]; [auto|]. cbn. congruence.
      * intros (a & b & E & P & N). destruct b as [|q b _] using rev_ind.
        -- apply app_inj_tail in E as [_ E]. cbn in *. congruence.
        -- rewrite app_comm_cons, app_assoc in E. apply app_inj_tail in E as [E _]. exists a, b. split; auto. split; auto.
           intros q' Hq'. apply N. apply in_or_app. now left.
Qed.
(** the last item of a section, in terms of the lines *)
Lemma good_last ps qs s x : Forall2 lib_good ps qs ->
  is_last (fun q => fst q = s) qs (s, x) <-> exists i, is_last (fun p => fst p = lib_header s) ps (lib_header s, i) /\ library_item_parse i = Some x.
Proof.
  assert (J : forall s t, lib_header s = lib_header t -> s = t) by (intros [] [] E; vm_compute in E; congruence).
  intros F. split.
  - intros (a & b & -> & P & N). apply Forall2_app_inv_r in F as (a' & b' & Fa & Fb & ->). inversion Fb as [|[h i] ? b2 ? [G1 G2] Fb2]; subst. cbn in *.
    subst h. exists i. split; auto. exists a', b2. split; auto. split; auto. intros p Hp E. 
    apply In_nth_error in Hp as [k Hk]. clear -J Fb2 Hk N E. revert k Hk. induction Fb2 as [|p' q' b2 b [G1 G2] F IH]; intros k Hk; [destruct k; discriminate|].
    destruct k as [|k]; [injection Hk as ->; apply (N q'); [now left|]; apply J; congruence|]. apply (IH (fun q Hq => N q (or_intror Hq)) k Hk).
  - intros (i & (a & b & -> & P & N) & Ei). apply Forall2_app_inv_l in F as (a' & b' & Fa & Fb & ->). inversion Fb as [|? [t y] ? b2 [G1 G2] Fb2]; subst. cbn in *.
    apply J in G1. subst t. assert (y = x) as -> by congruence. exists a', b2. split; auto. split; auto. intros q Hq E.
    apply In_nth_error in Hq as [k Hk]. clear -Fb2 Hk N E. revert k Hk. induction Fb2 as [|p' q' b2 b [G1 G2] F IH]; intros k Hk; [destruct k; discriminate|].
    destruct k as [|k]; [injection Hk as ->; apply (N p'); [now left|]; congruence|]. apply (IH (fun q Hq => N q (or_intror Hq)) k Hk).
Qed.
Lemma lib_items_good hs lines ps rest : library_picks hs lines ps rest -> (forall h, In h hs -> In h lib_headers) -> lib_items_ok ps -> exists qs, Forall2 lib_good ps qs.
Proof.
  intros P Hh. induction P as [rest|l r ps rest H P IH|h i r ps rest H P IH]; intros G; [exists []; constructor| auto |].
  destruct IH as [qs F]; [intros h' i' Hi; apply (G h'); now right|]. destruct (G h i (or_introl eq_refl)) as [x E].
  apply Hh, lib_slot_some in H as [s S]. exists ((s, x) :: qs). constructor; auto. split; cbn; auto. now apply lib_slot_header.
Qed.
Lemma good_items ps qs : Forall2 lib_good ps qs -> lib_items_ok ps.
Proof. induction 1 as [|p q ps qs [_ G] F IH]; intros h i []; [subst; eauto|]. eapply IH; eauto. Qed.
Lemma slot_none ps qs s : Forall2 lib_good ps qs -> slot_get s (lib_fold qs lib_empty) = None <-> ~ In (lib_header s) (map fst ps).
Proof.
  intros F. destruct (slot_get s (lib_fold qs lib_empty)) as [x|] eqn:E.
  - split; [discriminate|]. intros N. apply lib_fold_get, (good_last _ _ _ _ F) in E as (i & (a & b & -> & _) & _). destruct N.
    rewrite map_app. apply in_or_app. right. now left.
  - split; auto. intros _ H. apply in_map_iff in H as ([h i] & Eh & Hi). cbn in Eh. subst h.
    assert (L : exists x, is_last (fun q => fst q = s) qs (s, x)).
    { clear E. apply in_split in Hi as (a & b & ->). apply Forall2_app_inv_l in F as (a' & b' & Fa & Fb & ->). inversion Fb as [|? [t y] ? b2 [G1 G2] Fb2]; subst. cbn in *.
      assert (t = s) as -> by (destruct s, t; vm_compute in G1; congruence). clear.
      revert a' y. induction b2 as [|[t z] b IH] using rev_ind; intros a y; [exists y, a, []; split; auto|].
      assert (D : t = s \/ t <> s) by (destruct s, t; auto; right; discriminate). destruct D as [->|D].
      - exists z, (a ++ (s, y) :: b), []. split; [now rewrite <- app_assoc|]. split; auto.
      - destruct (IH a y) as (x & a1 & b1 & E1 & P & N). exists x, a1, (b1 ++ [(t, z)]). split; [rewrite app_comm_cons, app_assoc, E1; now rewrite <- app_assoc|].
        split; auto. intros q Hq. apply in_app_or in Hq as [Hq|[<-|[]]]; auto. }
    destruct L as [x L]. apply lib_fold_get in L. congruence.
Qed.
Definition lib_finish (st : lib_state) : res library_error library :=
  let* f := ok_or (MissingItem (lib_header LFirebase)) (ls_firebase st) in
  let* c := ok_or (MissingItem (lib_header LCompat)) (ls_compat st) in
  let* a := ok_or (MissingItem (lib_header LAdmob)) (ls_admob st) in
  let* g := ok_or (MissingItem (lib_header LGoogleMap)) (ls_google_map st) in
  Ok {| l_firebase := f; l_compat := c; l_admob := a; l_google_map := g |}.
Lemma lib_finish_ok st l : lib_finish st = Ok l <->
  slot_get LFirebase st = Some (l_firebase l) /\ slot_get LCompat st = Some (l_compat l) /\ slot_get LAdmob st = Some (l_admob l) /\ slot_get LGoogleMap st = Some (l_google_map l).
Proof.
  unfold lib_finish. cbn [slot_get]. destruct st as [[f|] [c|] [a|] [g|]], l as [f' c' a' g']; cbn; split; try discriminate; try (intros (? & ? & ? & ?); discriminate).
  - intros E. injection E as <- <- <- <-. auto.
  - intros (? & ? & ? & ?). congruence.
Qed.
Lemma lib_finish_err st e : lib_finish st = Err e <-> exists pre s post, [LFirebase; LCompat; LAdmob; LGoogleMap] = pre ++ s :: post /\ e = MissingItem (lib_header s) /\
  slot_get s st = None /\ forall t, In t pre -> slot_get t st <> None.
Proof.
  unfold lib_finish. split.
  - intros H. destruct (ls_firebase st) eqn:E1; cbn [ok_or bind] in H.
    2:{ injection H as <-. exists [], LFirebase, [LCompat; LAdmob; LGoogleMap]. repeat split; auto. }
    destruct (ls_compat st) eqn:E2; cbn [ok_or bind] in H.
    2:{ injection H as <-. exists [LFirebase], LCompat, [LAdmob; LGoogleMap]. repeat split; auto. intros ? [<-|[]]; cbn; congruence. }
    destruct (ls_admob st) eqn:E3; cbn [ok_or bind] in H.
    2:{ injection H as <-. exists [LFirebase; LCompat], LAdmob, [LGoogleMap]. repeat split; auto. intros ? [<-|[<-|[]]]; cbn; congruence. }
    destruct (ls_google_map st) eqn:E4; cbn [ok_or bind] in H; [discriminate|].
    injection H as <-. exists [LFirebase; LCompat; LAdmob], LGoogleMap, []. repeat split; auto. intros ? [<-|[<-|[<-|[]]]]; cbn; congruence.
  - intros (pre & s & post & E & -> & N & B).
    assert (C : forall t, In t pre -> exists x, slot_get t st = Some x) by (intros t Ht; specialize (B t Ht); destruct (slot_get t st); [eauto|congruence]).
    destruct pre as [|p1 pre]; [|destruct (C p1 (or_introl eq_refl)) as [x1 X1]; destruct pre as [|p2 pre]; [|destruct (C p2 (or_intror (or_introl eq_refl))) as [x2 X2]; destruct pre as [|p3 pre]; [|destruct (C p3 (or_intror (or_intror (or_introl eq_refl)))) as [x3 X3]; destruct pre as [|p4 pre]]]]; cbn [app] in E;
      try (injection E; intros; subst; cbn [slot_get] in *; rewrite ?X1, ?X2, ?X3, ?N; reflexivity).
    injection E. intros. destruct pre; discriminate.
Qed.
Lemma library_parse_run s ps qs rest : library_picks lib_headers (split_on NL s) ps rest -> Forall2 lib_good ps qs ->
  library_parse s = bind (lib_loop rest (lib_fold qs lib_empty) (N.of_nat (length (split_on NL s) - length rest - length ps))) lib_finish.
Proof.
  intros P F. unfold library_parse. fold lib_empty. rewrite (lib_run _ _ _ _ P F). rewrite N.add_0_l. reflexivity.
Qed.
Lemma library_parse_nopanic s : library_parse s <> Panic.
Proof.
  destruct (lib_progress (split_on NL s)) as (ps & qs & rest & P & F & K). rewrite (library_parse_run s ps qs rest P F).
  destruct K as [->|[(h & -> & Hh)|(h & i & r & -> & Hh & E)]].
  - cbn [lib_loop bind]. unfold lib_finish. destruct (lib_fold _ _) as [[f|] [c|] [a|] [g|]]; discriminate.
  - cbn [lib_loop]. apply lib_slot_some in Hh as [sl ->]. discriminate.
  - cbn [lib_loop]. apply lib_slot_some in Hh as [sl ->]. rewrite E. discriminate.
Qed.
Lemma library_parse_ok s l : library_parse s = Ok l <->
  exists ps, library_picks lib_headers (split_on NL s) ps [] /\ lib_items_ok ps /\
    forall h x, In (h, x) (lib_slots l) -> exists i, is_last (fun p => fst p = h) ps (h, i) /\ library_item_parse i = Some x.
Proof.
  split.
  - intros H. destruct (lib_progress (split_on NL s)) as (ps & qs & rest & P & F & K). rewrite (library_parse_run s ps qs rest P F) in H.
    destruct K as [->|[(h & -> & Hh)|(h & i & r & -> & Hh & E)]].
    + exists ps. split; auto. split; [eapply good_items; eauto|]. cbn [lib_loop bind] in H. apply lib_finish_ok in H as (H1 & H2 & H3 & H4).
      intros h x Hx. cbn in Hx. destruct Hx as [X|[X|[X|[X|[]]]]]; injection X as <- <-.
      * apply (good_last _ _ LFirebase _ F), lib_fold_get, H1.
      * apply (good_last _ _ LCompat _ F), lib_fold_get, H2.
      * apply (good_last _ _ LAdmob _ F), lib_fold_get, H3.
      * apply (good_last _ _ LGoogleMap _ F), lib_fold_get, H4.
    + exfalso. cbn [lib_loop] in H. apply lib_slot_some in Hh as [sl E]. rewrite E in H. discriminate.
    + exfalso. cbn [lib_loop] in H. apply lib_slot_some in Hh as [sl E']. rewrite E', E in H. discriminate.
  - intros (ps & P & G & L). destruct (lib_items_good _ _ _ _ P (fun h Hh => Hh) G) as [qs F]. rewrite (library_parse_run s ps qs [] P F).
    cbn [lib_loop bind]. apply lib_finish_ok. repeat split; apply lib_fold_get, (good_last _ _ _ _ F), L; cbn; auto.
Qed.
Lemma library_parse_err s e : library_parse s = Err e <->
  exists ps rest, library_picks lib_headers (split_on NL s) ps rest /\ lib_items_ok ps /\
    ((exists h, e = EOFAfterHeader h /\ rest = [h] /\ In h lib_headers) \/
     (exists h i r, e = LibraryItemParseError h (N.of_nat (length (split_on NL s) - length rest - length ps)) /\
        rest = h :: i :: r /\ In h lib_headers /\ library_item_parse i = None) \/
     (exists pre h post, e = MissingItem h /\ rest = [] /\ lib_headers = pre ++ h :: post /\
        ~ In h (map fst ps) /\ incl pre (map fst ps))).
Proof.
  split.
  - intros H. destruct (lib_progress (split_on NL s)) as (ps & qs & rest & P & F & K). rewrite (library_parse_run s ps qs rest P F) in H.
    exists ps, rest. split; auto. split; [eapply good_items; eauto|].
    destruct K as [->|[(h & -> & Hh)|(h & i & r & -> & Hh & E)]].
    + right. right. cbn [lib_loop bind] in H. apply lib_finish_err in H as (pre & t & post & E & -> & N & B).
      exists (map lib_header pre), (lib_header t), (map lib_header post). split; auto. split; auto.
      split; [change lib_headers with (map lib_header [LFirebase; LCompat; LAdmob; LGoogleMap]); rewrite E, map_app; reflexivity|].
      split; [apply (slot_none _ _ _ F), N|]. intros h Hh. apply in_map_iff in Hh as (t' & <- & Ht'). specialize (B t' Ht').
      rewrite (slot_none _ _ _ F) in B. destruct (in_dec (list_eq_dec N.eq_dec) (lib_header t') (map fst ps)); tauto.
    + left. exists h. split; auto. cbn [lib_loop] in H. apply lib_slot_some in Hh as [sl E]. rewrite E in H. apply lib_slot_header in E. subst h. cbn in H. congruence.
    + right. left. exists h, i, r. split; auto. cbn [lib_loop] in H. apply lib_slot_some in Hh as [sl E']. rewrite E', E in H. apply lib_slot_header in E'. subst h. cbn [bind] in H. congruence.
  - intros (ps & rest & P & G & K). destruct (lib_items_good _ _ _ _ P (fun h Hh => Hh) G) as [qs F]. rewrite (library_parse_run s ps qs rest P F).
    destruct K as [(h & -> & -> & Hh)|[(h & i & r & -> & -> & Hh & E)|(pre & h & post & -> & -> & E & N & B)]].
    + cbn [lib_loop]. apply lib_slot_some in Hh as [sl E]. rewrite E. apply lib_slot_header in E. now subst h.
    + cbn [lib_loop]. apply lib_slot_some in Hh as [sl E']. rewrite E', E. apply lib_slot_header in E'. now subst h.
    + cbn [lib_loop bind]. apply lib_finish_err.
      change lib_headers with (map lib_header [LFirebase; LCompat; LAdmob; LGoogleMap]) in E.
      apply map_eq_app in E as (pre' & r' & Er & Ep & Eh). destruct r' as [|t post']; [discriminate|]. cbn [map] in Eh. injection Eh as <- Epost.
      exists pre', t, post'. split; auto. split; auto. split; [now apply (slot_none _ _ _ F)|]. intros t' Ht'. rewrite (slot_none _ _ _ F). intros N'. apply N', B.
      rewrite <- Ep. now apply in_map.
Qed.

(** ** [view] *)
From Verif Require Import M_View ViewFileProofs.
Lemma layout_iter_eq lines acc c : exists body tail, lines = body ++ tail /\ ~ In [] body /\
  exists xs, Forall2 (fun l x => view_line_parse l = Some x) body xs /\
  ((exists r, ends_section tail r /\ layout_parse_iter lines acc c = Ok (acc ++ xs, r, c + N.of_nat (length body) + 1)) \/
   (exists bad r, tail = bad :: r /\ bad <> [] /\ view_line_parse bad = None /\
      layout_parse_iter lines acc c = Err {| lpe_view_before := last (map Some (acc ++ xs)) None; lpe_content := bad; lpe_line := c + N.of_nat (length body) |})).
Proof.
  revert acc c. induction lines as [|l r IH]; intros acc c.
  - exists [], []. split; auto. split; auto. exists []. split; [constructor|]. left. exists []. split; [left; auto|]. cbn [layout_parse_iter length].
    rewrite app_nil_r, N.add_0_r. reflexivity.
  - destruct l as [|a l].
    + exists [], ([] :: r). split; auto. split; auto. exists []. split; [constructor|]. left. exists r. split; [right; auto|]. cbn [layout_parse_iter length].
      rewrite app_nil_r, N.add_0_r. reflexivity.
    + cbn [layout_parse_iter]. destruct (view_line_parse (a :: l)) as [v|] eqn:E.
      * destruct (IH (acc ++ [v]) (c + 1)) as (body & tail & -> & Hb & xs & F & K). exists ((a :: l) :: body), tail. split; auto.
        split; [intros [X|X]; [discriminate|auto]|]. exists (v :: xs). split; [constructor; auto|].
        replace (c + N.of_nat (length ((a :: l) :: body))) with (c + 1 + N.of_nat (length body)) by (cbn [length]; lia).
        rewrite <- app_assoc in K. exact K.
      * exists [], ((a :: l) :: r). split; auto. split; auto. exists []. split; [constructor|]. right. exists (a :: l), r.
        split; auto. split; [discriminate|]. split; auto. cbn [length]. rewrite app_nil_r, N.add_0_r. reflexivity.
Qed.
Lemma layout_iter_run body xs tail r acc c : ~ In [] body -> Forall2 (fun l x => view_line_parse l = Some x) body xs -> ends_section tail r ->
  layout_parse_iter (body ++ tail) acc c = Ok (acc ++ xs, r, c + N.of_nat (length body) + 1).
Proof.
  intros Hb F T. revert acc c Hb. induction F as [|l x body xs E F IH]; intros acc c Hb.
  - rewrite app_nil_r. cbn [app length]. rewrite N.add_0_r. destruct T as [[-> ->]| ->]; reflexivity.
  - cbn [app layout_parse_iter]. destruct l as [|a l]; [exfalso; apply Hb; now left|]. rewrite E, IH by (intros X; apply Hb; now right).
    rewrite <- app_assoc. cbn [length app]. f_equal. f_equal. lia.
Qed.
Lemma layout_iter_bad body xs bad r acc c : ~ In [] body -> Forall2 (fun l x => view_line_parse l = Some x) body xs -> bad <> [] -> view_line_parse bad = None ->
  layout_parse_iter (body ++ bad :: r) acc c = Err {| lpe_view_before := last (map Some (acc ++ xs)) None; lpe_content := bad; lpe_line := c + N.of_nat (length body) |}.
Proof.
  intros Hb F B1 B2. revert acc c Hb. induction F as [|l x body xs E F IH]; intros acc c Hb.
  - rewrite app_nil_r. cbn [app length layout_parse_iter]. rewrite N.add_0_r. destruct bad; [congruence|]. now rewrite B2.
  - cbn [app layout_parse_iter]. destruct l as [|a l]; [exfalso; apply Hb; now left|]. rewrite E, IH by (intros X; apply Hb; now right).
    rewrite <- app_assoc. cbn [length app]. f_equal. f_equal. lia.
Qed.
Lemma view_loop_fuel f1 f2 lines acc n : (length lines < f1)%nat -> (length lines < f2)%nat -> view_loop f1 lines acc n = view_loop f2 lines acc n.
Proof.
  revert f2 lines acc n. induction f1 as [|f1 IH]; intros [|f2] [|l r] acc n L1 L2; try lia; [reflexivity|].
  cbn [length] in *. cbn [view_loop]. destruct (negb _); [reflexivity|]. destruct (bdrop 1 l) as [t|]; [|reflexivity]. cbn [unwrap bind].
  destruct (split_once (lit ".") t) as [[nm k]|]; [|reflexivity]. destruct (str_eqb k (lit "xml")).
  - pose proof (layout_iter_len r [] 0) as LL. destruct (layout_parse_iter r [] 0) as [[[lay r'] c]|e|]; try reflexivity.
    specialize (LL _ _ _ eq_refl). apply IH; lia.
  - destruct (str_eqb k (lit "xml_fab")); [|apply IH; lia]. destruct r as [|f r]; [reflexivity|]. destruct (view_line_parse f); [|reflexivity].
    cbn [length] in *. apply IH; lia.
Qed.
Definition view_run (lines : list str) (acc : view) (n : N) := view_loop (S (length lines)) lines acc n.
Lemma view_run_cons t r acc n : view_run ((64 :: t) :: r) acc n =
  match split_once (lit ".") t with
  | None => Err (VInvalidHeader (n + 1) (64 :: t))
  | Some (name, kind) =>
    if str_eqb kind (lit "xml") then
      match layout_parse_iter r [] 0 with
      | Ok (lay, r', c) => view_run r' {| vw_layouts := sinsert name lay (vw_layouts acc); vw_fabs := vw_fabs acc |} (n + 1 + c)
      | Err e => Err (VLayoutParseError name kind e)
      | Panic => Panic
      end
    else if str_eqb kind (lit "xml_fab") then
      match r with
      | [] => Err (VEOFAfterFabHeader name (n + 1 + 1))
      | f :: r' =>
        match view_line_parse f with
        | None => Err (VFabParseError name (n + 1 + 1) (64 :: t))
        | Some v => view_run r' {| vw_layouts := vw_layouts acc; vw_fabs := sinsert name v (vw_fabs acc) |} (n + 1 + 1)
        end
      end
    else view_run r acc (n + 1)
  end.
Proof.
  unfold view_run at 1. cbn [length]. remember (S (length r)) as F eqn:EF. cbn [view_loop].
  assert (Hs : starts_with [AT] (64 :: t) = true) by (apply starts_with_spec; exists t; reflexivity). rewrite Hs. cbn [negb].
  assert (Hd : bdrop 1 (64 :: t) = Some t) by (change (64 :: t) with ([64] ++ t); destruct t; reflexivity). rewrite Hd. cbn [unwrap bind].
  destruct (split_once (lit ".") t) as [[nm k]|]; [|reflexivity]. destruct (str_eqb k (lit "xml")).
  - pose proof (layout_iter_len r [] 0) as LL. destruct (layout_parse_iter r [] 0) as [[[lay r'] c]|e|]; try reflexivity.
    specialize (LL _ _ _ eq_refl). unfold view_run; apply view_loop_fuel; lia.
  - destruct (str_eqb k (lit "xml_fab")); [|unfold view_run; apply view_loop_fuel; lia]. destruct r as [|f r]; [reflexivity|]. destruct (view_line_parse f); [|reflexivity].
    cbn [length] in *. unfold view_run; apply view_loop_fuel; lia.
Qed.
Lemma split_dot n k : ~ In 46 n -> split_once (lit ".") (n ++ 46 :: k) = Some (n, k).
Proof. exact (split_once_char 46 n k). Qed.
Lemma split_dot_inv t : match split_once (lit ".") t with Some (n, k) => t = n ++ 46 :: k /\ ~ In 46 n | None => ~ In 46 t end.
Proof.
  destruct (in_dec N.eq_dec 46 t) as [H|H].
  - assert (X : exists n k, t = n ++ 46 :: k /\ ~ In 46 n).
    { induction t as [|a t IH]; [destruct H|]. destruct (N.eq_dec a 46) as [->|D]; [exists [], t; auto|].
      destruct H as [H|H]; [congruence|]. destruct (IH H) as (n & k & -> & N). exists (a :: n), k. split; auto. intros [X|X]; congruence. }
    destruct X as (n & k & -> & N). rewrite split_dot by auto. auto.
  - replace (split_once (lit ".") t) with (@None (str * str)); auto. symmetry. exact (split_once_char_none 46 t H).
Qed.
Inductive view_value := VVLayout (name : str) (xs : layout) | VVFab (name : str) (x : android_view).
Inductive ve_good : view_entry -> view_value -> Prop :=
| vg_layout n body xs : Forall2 (fun l x => view_line_parse l = Some x) body xs -> ve_good (VELayout n body) (VVLayout n xs)
| vg_fab n l x : view_line_parse l = Some x -> ve_good (VEFab n l) (VVFab n x).
Definition ve_set (acc : view) (v : view_value) : view :=
  match v with
  | VVLayout n xs => {| vw_layouts := sinsert n xs (vw_layouts acc); vw_fabs := vw_fabs acc |}
  | VVFab n x => {| vw_layouts := vw_layouts acc; vw_fabs := sinsert n x (vw_fabs acc) |}
  end.
Definition ve_len (es : list view_entry) (lines rest : list str) : Prop := (length rest <= length lines)%nat.
Lemma ends_len tail r : ends_section tail r -> (length r <= length tail)%nat.
Proof. intros [[-> ->]| ->]; cbn; lia. Qed.
Lemma view_entries_len lines es rest : view_entries lines es rest -> (length rest <= length lines)%nat.
Proof. induction 1; cbn [length]; try rewrite app_length; try pose proof (ends_len _ _ H1); lia. Qed.
(** the counter; it only matters when lines are left *)
Lemma view_run_run lines es rest vs : view_entries lines es rest -> Forall2 ve_good es vs -> forall acc n,
  view_run lines acc n = view_run rest (fold_left ve_set vs acc) (n + N.of_nat (length lines - length rest)) \/
  (rest = [] /\ view_run lines acc n = Ok (fold_left ve_set vs acc)).
Proof.
  intros V. revert vs. induction V as [rest|n body tail r es rest Hn Hb T V IH|n l r es rest Hn V IH|n k r es rest Hn K1 K2 V IH]; intros vs F acc c.
  - inversion F; subst. left. rewrite Nat.sub_diag. cbn [fold_left N.of_nat]. now rewrite N.add_0_r.
  - inversion F as [|? v ? vs' G F']; subst. inversion G as [? ? xs Gx|]; subst.
    rewrite view_run_cons. change (lit ".xml") with (46 :: lit "xml"). rewrite split_dot, str_eqb_refl, (layout_iter_run body xs tail r) by auto.
    cbn [app fold_left ve_set]. destruct T as [[-> ->]| ->].
    + pose proof (view_entries_len _ _ _ V) as L. destruct rest; [|cbn in L; lia]. right. split; auto.
      inversion V; subst. inversion F'; subst. reflexivity.
    + pose proof (view_entries_len _ _ _ V) as L. destruct (IH vs' F' (ve_set acc (VVLayout n xs)) (c + 1 + (0 + N.of_nat (length body) + 1))) as [E|[-> E]]; cbn [ve_set] in E; rewrite E.
      * left. f_equal. cbn [length]. rewrite app_length. cbn [length]. lia.
      * right. auto.
  - inversion F as [|? v ? vs' G F']; subst. inversion G as [|? ? x Gx]; subst.
    rewrite view_run_cons. change (lit ".xml_fab") with (46 :: lit "xml_fab"). rewrite split_dot by auto.
    replace (str_eqb (lit "xml_fab") (lit "xml")) with false by reflexivity. rewrite str_eqb_refl, Gx. cbn [fold_left ve_set].
    pose proof (view_entries_len _ _ _ V) as L. destruct (IH vs' F' (ve_set acc (VVFab n x)) (c + 1 + 1)) as [E|[-> E]]; cbn [ve_set] in E; rewrite E.
    + left. f_equal. cbn [length]. lia.
    + right. auto.
  - rewrite view_run_cons, split_dot by auto.
    destruct (str_eqb_spec k (lit "xml")); [congruence|]. destruct (str_eqb_spec k (lit "xml_fab")); [congruence|].
    pose proof (view_entries_len _ _ _ V) as L. destruct (IH vs F acc (c + 1)) as [E|[-> E]]; rewrite E.
    + left. f_equal. cbn [length]. lia.
    + right. auto.
Qed.
Lemma view_error_run rest acc n e : view_error_at rest (n + 1) e -> view_run rest acc n = Err e.
Proof.
  intros [(t & r & -> & H & ->)|[(name & body & bad & r & xs & -> & H & Hb & F & B1 & B2 & ->)|[(name & bad & r & -> & H & B & ->)|(name & -> & H & ->)]]]; rewrite view_run_cons.
  - replace (split_once (lit ".") t) with (@None (str * str)); [reflexivity|]. symmetry. exact (split_once_char_none 46 t H).
  - change (lit ".xml") with (46 :: lit "xml"). rewrite split_dot, str_eqb_refl, (layout_iter_bad body xs) by auto. reflexivity.
  - change (lit ".xml_fab") with (46 :: lit "xml_fab"). rewrite split_dot by auto. replace (str_eqb (lit "xml_fab") (lit "xml")) with false by reflexivity.
    rewrite str_eqb_refl, B. reflexivity.
  - change (lit ".xml_fab") with (46 :: lit "xml_fab"). rewrite split_dot by auto. replace (str_eqb (lit "xml_fab") (lit "xml")) with false by reflexivity.
    rewrite str_eqb_refl. reflexivity.
Qed.
Lemma no_header_run rest acc n : no_header rest -> view_run rest acc n = Ok acc.
Proof.
  intros H. unfold view_run. destruct rest as [|l r]; [reflexivity|]. cbn [view_loop].
  destruct (starts_with [AT] l) eqn:S; [|reflexivity]. apply starts_with_spec in S as [t ->]. exfalso. exact (H _ _ eq_refl t eq_refl).
Qed.
Lemma view_progress lines : exists es vs rest, view_entries lines es rest /\ Forall2 ve_good es vs /\
  (no_header rest \/ forall n, exists e, view_error_at rest n e).
Proof.
  assert (G : forall k lines, (length lines <= k)%nat -> exists es vs rest, view_entries lines es rest /\ Forall2 ve_good es vs /\
    (no_header rest \/ forall n, exists e, view_error_at rest n e)).
  { intros k. induction k as [|k IH]; intros [|l r] L; cbn [length] in L; try lia.
    - exists [], [], []. split; [constructor|]. split; [constructor|]. left. intros ? ? ?. discriminate.
    - exists [], [], []. split; [constructor|]. split; [constructor|]. left. intros ? ? ?. discriminate.
    - assert (Stop : forall rest, (no_header rest \/ forall n, exists e, view_error_at rest n e) -> rest = l :: r -> exists es vs rest, view_entries (l :: r) es rest /\ Forall2 ve_good es vs /\
        (no_header rest \/ forall n, exists e, view_error_at rest n e)).
      { intros rest K ->. exists [], [], (l :: r). split; [constructor|]. split; [constructor|auto]. }
      destruct l as [|a t]; [apply (Stop ([] :: r)); auto; left; intros ? ? [= <- <-] t; discriminate|].
      destruct (N.eq_dec a 64) as [->|D]; [|apply (Stop ((a :: t) :: r)); auto; left; intros ? ? [= <- <-] t' [= ? ?]; congruence].
      pose proof (split_dot_inv t) as S. destruct (split_once (lit ".") t) as [[n kd]|].
      2:{ apply (Stop ((64 :: t) :: r)); auto. right. intros n. eexists. left. exists t, r. auto. }
      destruct S as [-> Hn]. destruct (str_eqb_spec kd (lit "xml")) as [->|K1].
      + destruct (layout_iter_eq r [] 0) as (body & tail & -> & Hb & xs & F & [(r' & T & _)|(bad & r' & -> & B1 & B2 & _)]).
        * destruct (IH r') as (es & vs & rest & V & FV & K); [rewrite app_length in L; apply ends_len in T; lia|].
          exists (VELayout n body :: es), (VVLayout n xs :: vs), rest. split; [|split; [constructor; [constructor; auto|auto]|auto]].
          now apply ve_layout with (r := r').
        * apply (Stop ((64 :: n ++ lit ".xml") :: body ++ bad :: r')); auto. right. intros m. eexists. right. left. exists n, body, bad, r', xs. repeat split; auto.
      + destruct (str_eqb_spec kd (lit "xml_fab")) as [->|K2].
        * destruct r as [|f r]; [apply (Stop [64 :: n ++ lit ".xml_fab"]); auto; right; intros m; eexists; right; right; right; exists n; auto|].
          destruct (view_line_parse f) as [x|] eqn:E.
          -- destruct (IH r) as (es & vs & rest & V & FV & K); [cbn [length] in L; lia|].
             exists (VEFab n f :: es), (VVFab n x :: vs), rest. split; [now apply ve_fab|]. split; [constructor; [now constructor|auto]|auto].
          -- apply (Stop ((64 :: n ++ lit ".xml_fab") :: f :: r)); auto. right. intros m. eexists. right. right. left. exists n, f, r. auto.
        * destruct (IH r) as (es & vs & rest & V & FV & K); [lia|]. exists es, vs, rest. split; [now apply ve_other|auto]. }
  eapply G. reflexivity.
Qed.
Fixpoint vlays (vs : list view_value) : list (str * layout) :=
  match vs with [] => [] | VVLayout n xs :: r => (n, xs) :: vlays r | VVFab _ _ :: r => vlays r end.
Fixpoint vfabs (vs : list view_value) : list (str * android_view) :=
  match vs with [] => [] | VVLayout _ _ :: r => vfabs r | VVFab n x :: r => (n, x) :: vfabs r end.
Lemma ve_fold vs acc : fold_left ve_set vs acc =
  {| vw_layouts := fold_left (fun m kv => sinsert (fst kv) (snd kv) m) (vlays vs) (vw_layouts acc);
     vw_fabs := fold_left (fun m kv => sinsert (fst kv) (snd kv) m) (vfabs vs) (vw_fabs acc) |}.
Proof. revert acc. induction vs as [|[n xs|n x] vs IH]; intros acc; [destruct acc; reflexivity| |]; cbn [fold_left vlays vfabs fst snd]; rewrite IH; reflexivity. Qed.
Lemma ve_good_split es ls fs : (exists vs, Forall2 ve_good es vs /\ vlays vs = ls /\ vfabs vs = fs) <->
  Forall2 lay_good (layouts_of es) ls /\ Forall2 fab_good (fabs_of es) fs.
Proof.
  split.
  - intros (vs & F & <- & <-). induction F as [|e v es vs G F [IH1 IH2]]; [split; constructor|]. destruct G as [n body xs G|n l x G]; cbn; split; auto; constructor; auto; split; auto.
  - revert ls fs. induction es as [|[n body|n l] es IH]; cbn [layouts_of fabs_of]; intros ls fs [F1 F2].
    + inversion F1; inversion F2; subst. exists []. split; [constructor|auto].
    + inversion F1 as [|? [n' xs] ? ls' [G1 G2] F1']; subst. cbn in *. subst n'. destruct (IH ls' fs) as (vs & F & <- & <-); auto. exists (VVLayout n xs :: vs).
      split; [constructor; auto; now constructor|auto].
    + inversion F2 as [|? [n' x] ? fs' [G1 G2] F2']; subst. cbn in *. subst n'. destruct (IH ls fs') as (vs & F & <- & <-); auto. exists (VVFab n x :: vs).
      split; [constructor; auto; now constructor|auto].
Qed.
Definition view_empty : view := {| vw_layouts := []; vw_fabs := [] |}.
Lemma view_parse_run s : view_parse s = view_run (split_on NL s) view_empty 0.
Proof. reflexivity. Qed.
Lemma view_parse_ok s v : view_parse s = Ok v <->
  exists es rest ls fs, view_entries (split_on NL s) es rest /\ no_header rest /\
    Forall2 lay_good (layouts_of es) ls /\ Forall2 fab_good (fabs_of es) fs /\ v = {| vw_layouts := keep_last ls; vw_fabs := keep_last fs |}.
Proof.
  rewrite view_parse_run. split.
  - intros H. destruct (view_progress (split_on NL s)) as (es & vs & rest & V & F & K). exists es, rest, (vlays vs), (vfabs vs). split; auto.
    destruct (proj1 (ve_good_split es (vlays vs) (vfabs vs))) as [G1 G2]; [eauto|].
    rewrite <- (keep_last_fold (vlays vs)), <- (keep_last_fold (vfabs vs)).
    destruct (view_run_run _ _ _ _ V F view_empty 0) as [E|[-> E]]; rewrite E in H; rewrite ve_fold in H.
    + destruct K as [K|K].
      * rewrite no_header_run in H by auto. injection H as <-. split; auto.
      * destruct (K (0 + N.of_nat (length (split_on NL s) - length rest) + 1)) as [e He]. rewrite (view_error_run _ _ _ _ He) in H. discriminate.
    + injection H as <-. split; [intros ? ? ?; discriminate|]. split; auto.
  - intros (es & rest & ls & fs & V & K & G1 & G2 & ->). destruct (proj2 (ve_good_split es ls fs)) as (vs & F & <- & <-); [auto|].
    rewrite <- (keep_last_fold (vlays vs)), <- (keep_last_fold (vfabs vs)).
    destruct (view_run_run _ _ _ _ V F view_empty 0) as [E|[-> E]]; rewrite E; [rewrite no_header_run by auto|]; rewrite ve_fold; reflexivity.
Qed.
Lemma view_parse_err s e : view_parse s = Err e <->
  exists es rest ls fs, view_entries (split_on NL s) es rest /\ Forall2 lay_good (layouts_of es) ls /\ Forall2 fab_good (fabs_of es) fs /\
    view_error_at rest (N.of_nat (length (split_on NL s) - length rest) + 1) e.
Proof.
  rewrite view_parse_run. split.
  - intros H. destruct (view_progress (split_on NL s)) as (es & vs & rest & V & F & K). exists es, rest, (vlays vs), (vfabs vs). split; auto.
    destruct (proj1 (ve_good_split es (vlays vs) (vfabs vs))) as [G1 G2]; [eauto|]. split; auto. split; auto.
    destruct (view_run_run _ _ _ _ V F view_empty 0) as [E|[-> E]]; rewrite E in H; [|discriminate].
    destruct K as [K|K]; [rewrite no_header_run in H by auto; discriminate|].
    destruct (K (N.of_nat (length (split_on NL s) - length rest) + 1)) as [e' He]. rewrite N.add_0_l in H. rewrite (view_error_run _ _ _ _ He) in H. congruence.
  - intros (es & rest & ls & fs & V & G1 & G2 & He). destruct (proj2 (ve_good_split es ls fs)) as (vs & F & <- & <-); [auto|].
    destruct (view_run_run _ _ _ _ V F view_empty 0) as [E|[-> E]]; rewrite E.
    + rewrite N.add_0_l. now apply view_error_run.
    + exfalso. destruct He as [(?&?&X&_)|[(?&?&?&?&?&X&_)|[(?&?&?&X&_)|(?&X&_)]]]; discriminate.
Qed.
