(** Properties C14 (field order, unknown fields) and C15 (one clean line) of every JSON record. *)
From Coq Require Import Permutation.
From Verif Require Import Base Str Spec Dec Flt Json JsonProofs Recs RecsProofs LinesProofs M_File M_Library M_Resource FileProofs
  M_Color M_View ViewProofs ViewFileProofs M_Logic LogicProofs.

(** C14. Two field lists that have the same fields named in [names], in any order, and besides them only
    fields with other names. A key is [None] when it is not a valid string (a lone surrogate). *)
Definition same_known (names : list string) (kvs kvs' : list (option str * json)) : Prop :=
  exists common u u', Permutation kvs (common ++ u) /\ Permutation kvs' (common ++ u') /\
    Forall (fun kv => forall n, In n names -> fst kv <> Some (lit n)) (u ++ u').
Definition reads_fields {R} (names required : list string) (parse : str -> R) (error : R) : Prop :=
  (forall t t' kvs kvs', parse_json t = Some (JObj kvs) -> parse_json t' = Some (JObj kvs') ->
     Forall (fun kv => fst kv <> None) kvs -> Forall (fun kv => fst kv <> None) kvs' ->
     same_known names kvs kvs' -> parse t = parse t') /\
  (forall t kvs n a v b w c, parse_json t = Some (JObj kvs) -> In n names ->
     kvs = a ++ (Some (lit n), v) :: b ++ (Some (lit n), w) :: c -> parse t = error) /\
  (forall t kvs n, parse_json t = Some (JObj kvs) -> In n required ->
     ~ In (Some (lit n)) (map fst kvs) -> parse t = error).

Lemma keys_valid kvs : Forall (fun kv : option str * json => fst kv <> None) kvs -> forallb key_valid kvs = true.
Proof. intros H. apply forallb_forall. rewrite Forall_forall in H. intros [k v] Hk. specialize (H _ Hk). cbn in *. destruct k; [reflexivity|congruence]. Qed.
Lemma filter_none {A} (P : A -> bool) l : Forall (fun x => P x = false) l -> filter P l = [].
Proof. induction 1 as [|x l H _ IH]; [reflexivity|]. cbn [filter]. now rewrite H. Qed.
Lemma same_known_filter names kvs kvs' : same_known names kvs kvs' -> Permutation (filter (known names) kvs) (filter (known names) kvs').
Proof.
  intros (c & u & u' & P & P' & F). apply Forall_app in F as [F F'].
  assert (Z : forall u, Forall (fun kv : option str * json => forall n, In n names -> fst kv <> Some (lit n)) u -> filter (known names) u = []).
  { intros w Hw. apply filter_none. eapply Forall_impl; [|exact Hw]. intros [k v] Hk. unfold known. cbn [fst] in *.
    apply not_true_is_false. intros E. apply existsb_exists in E as (n & Hn & E). destruct k as [k|]; [|discriminate].
    cbn in E. apply str_eqb_eq in E. subst k. now apply (Hk n Hn). }
  apply (Permutation_filter (known names)) in P, P'. rewrite filter_app in P, P'. rewrite (Z u), app_nil_r in P by auto. rewrite (Z u'), app_nil_r in P' by auto.
  etransitivity; [exact P|]. now symmetry.
Qed.
Lemma sf_length names kvs fs : sf names (JObj kvs) = Some fs -> length fs = length names.
Proof.
  unfold sf, struct_fields. destruct (forallb key_valid kvs); [|discriminate]. revert fs; induction names as [|n names IH]; intros fs; cbn [map omapM].
  - intros [= <-]. reflexivity.
  - destruct (field_of kvs (lit n)); [|discriminate]. cbn [obind]. destruct (omapM (field_of kvs) (map lit names)); [|discriminate].
    cbn [obind]. intros [= <-]. cbn. f_equal. now apply IH.
Qed.
Lemma reads_fields_of {A} names required (d : json -> option A) k : (forall j, d j = let? fs := sf names j in k fs) -> incl required names ->
  (forall fs i n, length fs = length names -> nth_error names i = Some n -> In n required -> nth_error fs i = Some None -> k fs = None) ->
  reads_fields names required (from_str d) None.
Proof.
  intros D I K. split; [|split].
  - intros t t' kvs kvs' E E' V V' S. unfold from_str. rewrite E, E'. cbn [obind]. rewrite !D. erewrite sf_perm; [reflexivity| |].
    + now rewrite !keys_valid.
    + now apply same_known_filter.
  - intros t kvs n a v b w c E Hn Hk. unfold from_str. rewrite E. cbn [obind]. rewrite D. now rewrite (sf_dup names kvs n a v b w c).
  - intros t kvs n E Hn Hk. unfold from_str. rewrite E. cbn [obind]. rewrite D. destruct (sf names (JObj kvs)) as [fs|] eqn:F; [|reflexivity].
    cbn [obind]. destruct (In_nth_error names n (I n Hn)) as [i Hi]. apply (K fs i n); auto; [now apply sf_length in F|].
    eapply sf_missing; eassumption.
Qed.
Lemma reads_fields_map {R S} names required (parse : str -> R) error (f : R -> S) :
  reads_fields names required parse error -> reads_fields names required (fun t => f (parse t)) (f error).
Proof. intros (A & B & C). split; [|split]; intros; f_equal; eauto. Qed.

Ltac fields_by lem :=
  eapply lem; [intros j; reflexivity| |];
  [intros x Hx; cbn in Hx |- *; tauto|];
  intros fs i n Hl Hi Hr Hf; cbn [length] in Hl;
  do 40 (try (destruct fs as [|? fs]; cbn [length] in Hl; [discriminate Hl|apply eq_add_S in Hl]));
  destruct fs; [|discriminate Hl]; clear Hl;
  do 40 (try (destruct i as [|i]; [cbn [nth_error] in Hi, Hf; injection Hi as <-; injection Hf as ->;
    first [ cbn [In] in Hr; exfalso; clear - Hr; intuition discriminate
          | cbn [req obind];
            repeat match goal with |- obind ?o _ = None => destruct o; cbn [req obind]; [|reflexivity] end; reflexivity ] | ]));
  destruct i; discriminate Hi.
Ltac fields := fields_by @reads_fields_of.

Definition file_item_fields : list string := ["fileName"; "fileType"; "keyboardSetting"; "options"; "orientation"; "theme"]%string.
Theorem C14_file_item : reads_fields file_item_fields file_item_fields file_item_parse None.
Proof. unfold file_item_parse, file_item_fields. fields. Qed.
Print Assumptions C14_file_item.
Definition library_item_fields : list string := ["adUnits"; "data"; "libType"; "reserved1"; "reserved2"; "reserved3"; "testDevices"; "useYn"]%string.
Theorem C14_library_item : reads_fields library_item_fields library_item_fields library_item_parse None.
Proof. unfold library_item_parse, library_item_fields. fields. Qed.
Print Assumptions C14_library_item.
Definition resource_item_fields : list string := ["resFullName"; "resName"; "resType"]%string.
Theorem C14_resource_item : reads_fields resource_item_fields resource_item_fields resource_item_parse None.
Proof. unfold resource_item_parse, resource_item_fields. fields. Qed.
Print Assumptions C14_resource_item.
Definition component_json_fields : list string := ["componentId"; "param1"; "param2"; "param3"; "type"]%string.
Theorem C14_component : reads_fields component_json_fields component_json_fields component_parse (Err tt).
Proof.
  apply (reads_fields_map _ _ (from_str d_component) None (ok_or tt)). unfold component_json_fields. fields.
Qed.
Print Assumptions C14_component.
Definition event_json_fields : list string := ["eventName"; "eventType"; "targetId"; "targetType"]%string.
Theorem C14_event : reads_fields event_json_fields event_json_fields event_parse (Err tt).
Proof.
  apply (reads_fields_map _ _ (from_str d_event) None (ok_or tt)). unfold event_json_fields. fields.
Qed.
Print Assumptions C14_event.
Definition block_json_fields : list string :=
  ["color"; "id"; "nextBlock"; "opCode"; "parameters"; "spec"; "subStack1"; "subStack2"; "type"; "typeName"]%string.
Theorem C14_block : reads_fields block_json_fields block_json_fields block_parse (Err tt).
Proof.
  apply (reads_fields_map _ _ (from_str d_block) None (ok_or tt)). unfold block_json_fields. fields.
Qed.
Print Assumptions C14_block.
(** a view line; [preId], [parent] and [preParent] may be missing *)
Definition view_json_fields : list string :=
  ["adSize"; "adUnitId"; "alpha"; "checked"; "choiceMode"; "clickable"; "customView"; "dividerHeight"; "enabled"; "firstDayOfWeek";
   "id"; "image"; "indeterminate"; "index"; "layout"; "max"; "parent"; "parentType"; "preId"; "preIndex"; "preParent"; "preParentType";
   "progress"; "progressStyle"; "scaleX"; "scaleY"; "spinnerMode"; "text"; "translationX"; "translationY"; "type"]%string.
Definition view_json_required : list string :=
  ["adSize"; "adUnitId"; "alpha"; "checked"; "choiceMode"; "clickable"; "customView"; "dividerHeight"; "enabled"; "firstDayOfWeek";
   "id"; "image"; "indeterminate"; "index"; "layout"; "max"; "parentType"; "preIndex"; "preParentType";
   "progress"; "progressStyle"; "scaleX"; "scaleY"; "spinnerMode"; "text"; "translationX"; "translationY"; "type"]%string.
Theorem C14_view : reads_fields view_json_fields view_json_required view_line_parse None.
Proof. unfold view_line_parse, view_json_fields, view_json_required. fields. Qed.
Print Assumptions C14_view.

(** The records within a view line ([image], [layout] and [text]) are read in the same way: wherever they are in the line,
    their fields may be in any order and among others, and a repeated or missing one is an error. *)
Definition nested_fields : list (string * (list string * list string)) :=
  [("image", (["resName"; "rotate"; "scaleType"], ["rotate"; "scaleType"]));
   ("layout", let l := ["backgroundColor"; "gravity"; "height"; "layoutGravity"; "marginBottom"; "marginLeft"; "marginRight"; "marginTop"; "orientation"; "paddingBottom"; "paddingLeft";
                        "paddingRight"; "paddingTop"; "weight"; "weightSum"; "width"] in (l, l));
   ("text", let l := ["hint"; "hintColor"; "imeOption"; "inputType"; "line"; "singleLine"; "text"; "textColor"; "textFont"; "textSize"; "textType"] in (l, l))]%string.
Definition same_field (kv kv' : option str * json) : Prop :=
  fst kv' = fst kv /\
  (snd kv' = snd kv \/
   exists n names required a b, In (n, (names, required)) nested_fields /\ fst kv = Some (lit n) /\ snd kv = JObj a /\ snd kv' = JObj b /\
     Forall (fun kv => fst kv <> None) a /\ Forall (fun kv => fst kv <> None) b /\ same_known names a b).
Definition reads_object {A} (names required : list string) (d : json -> option A) : Prop :=
  (forall a b, Forall (fun kv => fst kv <> None) a -> Forall (fun kv => fst kv <> None) b -> same_known names a b -> d (JObj a) = d (JObj b)) /\
  (forall a n u v x w y, In n names -> a = u ++ (Some (lit n), v) :: x ++ (Some (lit n), w) :: y -> d (JObj a) = None) /\
  (forall a n, In n required -> ~ In (Some (lit n)) (map fst a) -> d (JObj a) = None).
Lemma reads_object_of {A} names required (d : json -> option A) k : (forall j, d j = let? fs := sf names j in k fs) -> incl required names ->
  (forall fs i n, length fs = length names -> nth_error names i = Some n -> In n required -> nth_error fs i = Some None -> k fs = None) ->
  reads_object names required d.
Proof.
  intros D I K. split; [|split].
  - intros a b V V' S. rewrite !D. erewrite sf_perm; [reflexivity| |].
    + now rewrite !keys_valid.
    + now apply same_known_filter.
  - intros a n u v x w y Hn Hk. rewrite D. now rewrite (sf_dup names a n u v x w y).
  - intros a n Hn Hk. rewrite D. destruct (sf names (JObj a)) as [fs|] eqn:F; [|reflexivity].
    cbn [obind]. destruct (In_nth_error names n (I n Hn)) as [i Hi]. apply (K fs i n); auto; [now apply sf_length in F|].
    eapply sf_missing; eassumption.
Qed.
Lemma image_object : reads_object ["resName"; "rotate"; "scaleType"]%string ["rotate"; "scaleType"]%string d_image.
Proof. fields_by @reads_object_of. Qed.
Lemma layout_object : reads_object (fst (snd (nth 1 nested_fields (""%string, ([], []))))) (snd (snd (nth 1 nested_fields (""%string, ([], []))))) d_layout.
Proof. cbn [nth fst snd nested_fields]. fields_by @reads_object_of. Qed.
Lemma text_object : reads_object (fst (snd (nth 2 nested_fields (""%string, ([], []))))) (snd (snd (nth 2 nested_fields (""%string, ([], []))))) d_text.
Proof. cbn [nth fst snd nested_fields]. fields_by @reads_object_of. Qed.
Lemma field_same kvs kvs' n : Forall2 same_field kvs kvs' ->
  field_of kvs' n = field_of kvs n \/ exists v v', same_field (Some n, v) (Some n, v') /\ field_of kvs n = Some (Some v) /\ field_of kvs' n = Some (Some v').
Proof.
  intros F. assert (F' : Forall2 same_field (filter (fun kv => okey_eqb n (fst kv)) kvs) (filter (fun kv => okey_eqb n (fst kv)) kvs')).
  { induction F as [|x y l m S _ IH]; [constructor|]. cbn [filter]. destruct S as [E S]. rewrite E. destruct (okey_eqb n (fst x)); [|exact IH]. constructor; [split; auto|exact IH]. }
  unfold field_of. inversion F' as [E1 E2|x y l m S G E1 E2]; [auto|]. inversion G; [|auto]. right. exists (snd x), (snd y). split; [|auto].
  assert (I : In x (filter (fun kv => okey_eqb n (fst kv)) kvs)) by (rewrite <- E1; now left). apply filter_In in I as [_ I]. destruct x as [[k|] v], y as [k' v']; [|discriminate I].
  cbn in I. apply str_eqb_eq in I. subst k. destruct S as [S1 S2]. cbn in S1. subst k'. split; auto.
Qed.
Lemma field_plain kvs kvs' n : Forall2 same_field kvs kvs' -> ~ In n (map lit (map fst nested_fields)) -> field_of kvs' n = field_of kvs n.
Proof.
  intros F N. destruct (field_same kvs kvs' n F) as [E|(v & v' & [_ [S|(m & names & rq & a & b & I & S & _)]] & E & E')]; [exact E|cbn in S; congruence|].
  elim N. injection S as ->. apply in_map. apply (in_map fst) in I. exact I.
Qed.
Lemma field_nested {A} (d : json -> option A) i n names rq : nth_error nested_fields i = Some (n, (names, rq)) -> reads_object names rq d -> forall kvs kvs', Forall2 same_field kvs kvs' ->
  field_of kvs' (lit n) = field_of kvs (lit n) \/ exists v v', d v = d v' /\ field_of kvs (lit n) = Some (Some v) /\ field_of kvs' (lit n) = Some (Some v').
Proof.
  intros E (R & _) kvs kvs' F. destruct (field_same kvs kvs' (lit n) F) as [K|(v & v' & [_ [S|(m & names' & rq' & a & b & I & S & S1 & S2 & V & V' & S3)]] & K & K')]; [auto|left; cbn in S; congruence|].
  right. exists v, v'. split; [|auto]. cbn in S, S1, S2. subst v v'. apply R; auto.
  assert (names' = names) as <-; [|exact S3]. injection S as S.
  destruct I as [I|[I|[I|[]]]]; injection I as <- <- <-; destruct i as [|[|[|[|]]]]; try discriminate E; injection E as <- <- <-; try reflexivity; vm_compute in S; discriminate S.
Qed.
Fixpoint pairwise {A B} (R : A -> B -> B -> Prop) (l : list A) (m m' : list B) : Prop :=
  match l with
  | [] => m = [] /\ m' = []
  | a :: l => match m, m' with x :: m, y :: m' => R a x y /\ pairwise R l m m' | _, _ => False end
  end.
Lemma omapM_pairwise {A B} (R : A -> B -> B -> Prop) f g l :
  (forall a, In a l -> match f a, g a with None, None => True | Some x, Some y => R a x y | _, _ => False end) ->
  match omapM f l, omapM g l with None, None => True | Some m, Some m' => pairwise R l m m' | _, _ => False end.
Proof.
  induction l as [|a l IH]; intros H; [cbn; auto|]. cbn [omapM pairwise]. pose proof (H a (or_introl eq_refl)) as Ha. specialize (IH (fun b I => H b (or_intror I))).
  destruct (f a), (g a); try contradiction; [|exact I]. cbn [obind]. destruct (omapM f l), (omapM g l); try contradiction; cbn [obind]; [auto|exact I].
Qed.
Definition same_value (n : str) (o o' : option json) : Prop :=
  if str_eqb n (lit "image") then req d_image o = req d_image o' else if str_eqb n (lit "layout") then req d_layout o = req d_layout o'
  else if str_eqb n (lit "text") then req d_text o = req d_text o' else o = o'.
Lemma view_nested kvs kvs' : Forall2 same_field kvs kvs' -> d_view (JObj kvs) = d_view (JObj kvs').
Proof.
  intros F. unfold d_view, sf, struct_fields.
  assert (V : forallb key_valid kvs' = forallb key_valid kvs).
  { induction F as [|x y l m S _ IH]; [reflexivity|]. cbn [forallb]. rewrite IH. unfold key_valid. now rewrite (proj1 S). }
  rewrite V. destruct (forallb key_valid kvs); [|reflexivity].
  pose proof (omapM_pairwise same_value (field_of kvs) (field_of kvs') (map lit android_view_names)) as P.
  assert (H : forall n, match field_of kvs n, field_of kvs' n with None, None => True | Some x, Some y => same_value n x y | _, _ => False end).
  { intros n.
    assert (G : forall A (d : json -> option A), field_of kvs' n = field_of kvs n \/ (exists v v', d v = d v' /\ field_of kvs n = Some (Some v) /\ field_of kvs' n = Some (Some v')) ->
              match field_of kvs n, field_of kvs' n with None, None => True | Some x, Some y => req d x = req d y | _, _ => False end).
    { intros A d [->|(v & v' & D & -> & ->)]; [destruct (field_of kvs n); auto|exact D]. }
    unfold same_value.
    destruct (str_eqb n (lit "image")) eqn:E1; [apply str_eqb_eq in E1; subst n; apply G; exact (field_nested d_image 0 _ _ _ eq_refl image_object kvs kvs' F)|].
    destruct (str_eqb n (lit "layout")) eqn:E2; [apply str_eqb_eq in E2; subst n; apply G; exact (field_nested d_layout 1 _ _ _ eq_refl layout_object kvs kvs' F)|].
    destruct (str_eqb n (lit "text")) eqn:E3; [apply str_eqb_eq in E3; subst n; apply G; exact (field_nested d_text 2 _ _ _ eq_refl text_object kvs kvs' F)|].
    rewrite (field_plain kvs kvs' n F); [destruct (field_of kvs n); auto|].
    cbn [map fst nested_fields]. intros [K|[K|[K|[]]]]; subst n; [rewrite str_eqb_refl in E1; discriminate|rewrite str_eqb_refl in E2; discriminate|rewrite str_eqb_refl in E3; discriminate]. }
  specialize (P (fun n _ => H n)). destruct (omapM (field_of kvs) _) as [fs|], (omapM (field_of kvs') _) as [fs'|]; try contradiction; [|reflexivity].
  clear H F V. cbn [obind]. unfold android_view_names in P. cbn [map pairwise] in P.
  do 31 (destruct fs as [|? fs], fs' as [|? fs']; try contradiction; let H := fresh in destruct P as [H P];
    match type of H with same_value (lit ?s) ?o ?o' => 
      lazymatch s with "image"%string => change (req d_image o = req d_image o') in H | "layout"%string => change (req d_layout o = req d_layout o') in H
        | "text"%string => change (req d_text o = req d_text o') in H | _ => change (o = o') in H; subst o' end end).
  destruct P as [-> ->].
  repeat match goal with |- obind ?o _ = obind ?o _ => destruct o; cbn [obind]; [|reflexivity] | H : ?a = ?b |- obind ?a _ = obind ?b _ => rewrite H; destruct b; cbn [obind]; [|reflexivity] end.
  reflexivity.
Qed.
Lemma view_nested_bad kvs n a : In (Some (lit n), JObj a) kvs ->
  (n = "image"%string /\ d_image (JObj a) = None) \/ (n = "layout"%string /\ d_layout (JObj a) = None) \/ (n = "text"%string /\ d_text (JObj a) = None) ->
  d_view (JObj kvs) = None.
Proof.
  intros I B. unfold d_view. destruct (sf android_view_names (JObj kvs)) as [fs|] eqn:S; [|reflexivity]. cbn [obind].
  unfold sf, struct_fields in S. destruct (forallb key_valid kvs); [|discriminate].
  assert (U : forall o, field_of kvs (lit n) = Some o -> o = Some (JObj a)).
  { intros o. unfold field_of. assert (J : In (Some (lit n), JObj a) (filter (fun kv => okey_eqb (lit n) (fst kv)) kvs)) by (apply filter_In; split; [exact I|cbn; apply str_eqb_refl]).
    destruct (filter _ kvs) as [|x [|? ?]]; [contradiction| |discriminate]. intros [= <-]. destruct J as [->|[]]. reflexivity. }
  pose proof (omapM_pairwise (fun k x y => x = y /\ (k = lit n -> x = Some (JObj a))) (field_of kvs) (field_of kvs) (map lit android_view_names)) as P. rewrite S in P.
  assert (Q : forall k, match field_of kvs k, field_of kvs k with None, None => True | Some x, Some y => x = y /\ (k = lit n -> x = Some (JObj a)) | _, _ => False end).
  { intros k. destruct (field_of kvs k) eqn:E; [|exact Logic.I]. split; [reflexivity|]. intros ->. now apply U. }
  specialize (P (fun k _ => Q k)). clear Q U S I. unfold android_view_names in P. cbn [map pairwise] in P.
  do 31 (destruct fs as [|? fs]; try contradiction; let H := fresh in destruct P as [[_ H] P];
    match type of H with lit ?s = _ -> _ => lazymatch s with "image"%string => idtac | "layout"%string => idtac | "text"%string => idtac | _ => clear H end end).
  destruct P as [-> _].
  destruct B as [[-> B]|[[-> B]|[-> B]]];
  repeat match goal with H : ?a = ?a -> _ |- _ => specialize (H eq_refl); subst | H : lit _ = lit _ -> _ |- _ => clear H end;
  cbn [req]; rewrite B;
  repeat match goal with |- obind ?o _ = None => destruct o; cbn [req obind]; [|reflexivity] end; reflexivity.
Qed.
Theorem C14_view_nested :
  (forall t t' kvs kvs1 kvs', parse_json t = Some (JObj kvs) -> parse_json t' = Some (JObj kvs') ->
     Forall (fun kv => fst kv <> None) kvs -> Forall (fun kv => fst kv <> None) kvs' ->
     Forall2 same_field kvs kvs1 -> same_known view_json_fields kvs1 kvs' -> view_line_parse t = view_line_parse t') /\
  (forall t kvs n names required a, parse_json t = Some (JObj kvs) -> In (n, (names, required)) nested_fields -> In (Some (lit n), JObj a) kvs ->
     (exists m u v x w y, In m names /\ a = u ++ (Some (lit m), v) :: x ++ (Some (lit m), w) :: y) \/ (exists m, In m required /\ ~ In (Some (lit m)) (map fst a)) ->
     view_line_parse t = None).
Proof.
  split.
  - intros t t' kvs kvs1 kvs' E E' V V' F S. unfold view_line_parse, from_str. rewrite E, E'. cbn [obind]. rewrite (view_nested kvs kvs1 F).
    assert (V1 : Forall (fun kv => fst kv <> None) kvs1). { clear - V F. induction F as [|x y l m S _ IH]; [constructor|]. inversion V; subst. constructor; [|auto]. now rewrite (proj1 S). }
    unfold d_view. erewrite sf_perm; [reflexivity| |].
    + now rewrite !keys_valid.
    + now apply same_known_filter.
  - intros t kvs n names rq a E I K B. unfold view_line_parse, from_str. rewrite E. cbn [obind]. apply (view_nested_bad kvs n a K).
    assert (D : forall A (d : json -> option A), reads_object names rq d -> d (JObj a) = None).
    { intros A d (_ & D2 & D3). destruct B as [(m & u & v & x & w & y & J & L)|(m & J & L)]; [now apply (D2 a m u v x w y)|now apply (D3 a m)]. }
    destruct I as [I|[I|[I|[]]]]; injection I as <- <- <-; [left|right; left|right; right]; (split; [reflexivity|]); apply D; [exact image_object|exact layout_object|exact text_object].
Qed.
Print Assumptions C14_view_nested.
Example C14_view_nested_example :
  let im := Some {| ic_res_name := None; ic_rotate := 90; ic_scale_type := ScCenter |} in
  from_str d_image (lit "{""rotate"":90,""scaleType"":""CENTER""}") = im /\
  from_str d_image (lit "{""scaleType"":""CENTER"",""color"":[],""rotate"":90}") = im /\
  from_str d_image (lit "{""rotate"":90,""scaleType"":""CENTER"",""rotate"":90}") = None /\
  from_str d_image (lit "{""scaleType"":""CENTER""}") = None.
Proof. vm_compute. auto. Qed.
Example C14_example :
  let ev := Ok {| ev_name := lit "onClick"; ev_type := 1; ev_target_id := lit "b"; ev_target_type := 4 |} in
  event_parse (lit "{""eventName"":""onClick"",""eventType"":1,""targetId"":""b"",""targetType"":4}") = ev /\
  event_parse (lit "{""x"":[{}], ""targetType"":4, ""eventType"":1, ""x"":null, ""targetId"":""b"", ""eventName"":""onClick""}") = ev /\
  event_parse (lit "{""targetType"":4,""eventName"":""onClick"",""eventType"":1,""targetId"":""b"",""targetType"":4}") = Err tt /\
  event_parse (lit "{""eventName"":""onClick"",""eventType"":1,""targetId"":""b""}") = Err tt.
Proof. vm_compute. auto. Qed.

(** C15 *)
Definition one_line (s : str) : Prop :=
  ~ In 10 s /\ (exists m, s = lit "{" ++ m ++ lit "}") /\ trim s = s /\ s <> [] /\ starts_with (lit "@") s = false.
Lemma clean_one s : clean_line s -> one_line s.
Proof.
  intros C. split; [apply C|]. split; [|split; [now apply clean_trim|split; [now apply clean_nonnil|]]].
  - destruct C as [_ [t ->]]. exists t. reflexivity.
  - destruct C as [_ [t ->]]. reflexivity.
Qed.
Theorem C15_one_line :
  (forall x, one_line (file_item_reconstruct x)) /\ (forall x, one_line (library_item_reconstruct x)) /\
  (forall x, one_line (resource_item_reconstruct x)) /\ (forall x, one_line (component_reconstruct x)) /\
  (forall x, one_line (event_reconstruct x)) /\ (forall x, one_line (block_reconstruct x)) /\
  (forall x, Forall (fun f => canonical F32 f = true) [av_alpha x; av_scale_x x; av_scale_y x; av_translation_x x; av_translation_y x] ->
     one_line (view_line_reconstruct x)).
Proof.
  repeat apply conj; intros x; try (intros H; apply clean_one, view_line_clean; exact H); apply clean_one;
  auto using file_item_clean, library_item_clean, resource_item_clean, component_clean, event_clean, block_clean.
Qed.
Print Assumptions C15_one_line.
Example C15_example :
  component_reconstruct (component_new (lit "a" ++ [10] ++ lit "@b" ++ [10; 10]) (lit "}") [32] [9] 3) =
    lit "{""componentId"":""a\n@b\n\n"",""param1"":""}"",""param2"":"" "",""param3"":""\t"",""type"":3}".
Proof. vm_compute. reflexivity. Qed.
