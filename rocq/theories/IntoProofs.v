(** Proofs about what is written for a project of the API ([SpecInto.v]). *)
From Verif Require Import Base Spec Str Dec Flt FltProofs FltCanon M_Color ColorProofs M_Raw M_Project M_File M_Library M_Resource M_View M_Logic M_Parsed
  A_Block A_View A_Screen A_Project SpecLines SpecBlock SpecScreen SpecProject SpecInto LogicMapProofs BlockContentProofs BlockProofs BlockReadProofs BlockWriteProofs
  ReadingProofs ViewTreeProofs ScreenProofs ApiProjectProofs.
From Coq Require Import ZifyNat ZifyN ZifyBool.

(** ** Code *)
Lemma len_app {A} (a b : list A) : len (a ++ b) = len a + len b.
Proof. unfold len. rewrite app_length. lia. Qed.
Lemma len_cons {A} (x : A) l : len (x :: l) = 1 + len l.
Proof. unfold len. cbn [length]. lia. Qed.
Lemma last_id_ok c bs c' : numbered c bs c' -> bs <> [] -> c' < 2 ^ 31 -> last_id bs = Ok (Z.of_N c').
Proof.
  intros H Hn L. destruct (numbered_last _ _ _ H Hn) as (pre & pb & -> & E). unfold last_id. rewrite rev_app_distr. cbn [rev app]. rewrite E.
  replace (parse_i32 (dec_of_N c')) with (Some (Z.of_N c')); [reflexivity|]. symmetry.
  pose proof (parse_int_dec 2147483648 I32MAX (Z.of_N c')) as X. destruct c' as [|p]; [reflexivity|]. apply X. unfold I32MAX. lia.
Qed.
Lemma spec_text_eq items : content_to_string (fst (take_args items)) = spec_text items.
Proof.
  rewrite content_to_string_join, map_item_spec. reflexivity.
Qed.
Lemma type_letter_eq t : block_type_to_string t = type_letter t.
Proof. destruct t as [|[]|[]]; reflexivity. Qed.
Lemma type_names_eq t : match get_typename t with Some n => n | None => [] end = type_names t.
Proof. destruct t as [|[]|[]]; reflexivity. Qed.
Lemma truth_block_eq v n : literal_raw v n = truth_block v n.
Proof. destruct v; reflexivity. Qed.
Definition conv_w (b : ablock) : Prop := forall c (last : bool) bs c', c' + (if last then 0 else 1) < 2 ^ 31 ->
  (convert_block b c last = Ok (bs, c') <-> w_block b (c + 1) last bs /\ c' = c + len bs).
Lemma value_w {T} (f : T -> str) v c p bs c' : c' < 2 ^ 31 -> value_all conv_w v ->
  (conv_value convert_block f v c = Ok (p, bs, c') <->
   match v with
   | AValue t => p = f t /\ bs = [] /\ c' = c
   | ABlock b => w_block b (c + 1) true bs /\ c' = c + len bs /\ p = lit "@" ++ dec_of_N c'
   | APlaceholder _ => False
   | AEmpty => p = [] /\ bs = [] /\ c' = c
   end).
Proof.
  intros L Q. destruct v as [t|b|i|]; cbn [conv_value value_all] in *.
  - split; [intros [= <- <- <-]; auto|]. intros (-> & -> & ->). reflexivity.
  - rewrite bind_ok. split.
    + intros ([bs0 c0] & H & E). assert (P : p = lit "@" ++ dec_of_N c0) by congruence. assert (B : bs = bs0) by congruence. assert (C : c' = c0) by congruence. subst.
      apply Q in H; [tauto|lia].
    + intros (H & E & ->). exists (bs, c'). split; [apply Q; [lia|tauto]|reflexivity].
  - split; [discriminate|tauto].
  - split; [intros [= <- <- <-]; auto|]. intros (-> & -> & ->). reflexivity.
Qed.
Lemma arg_w a c p bs c' : c' < 2 ^ 31 -> item_all conv_w (SParam a) ->
  (conv_arg convert_block a c = Ok (p, bs, c') <-> w_arg a (c + 1) p bs /\ c' = c + len bs).
Proof.
  intros L Q.
  assert (INN : forall b, block_argument a b -> c' = c + len bs -> w_block b (c + 1) true bs -> w_arg a (c + 1) (lit "@" ++ dec_of_N c') bs).
  { intros b B E H. replace c' with (c + 1 + len bs - 1) by lia. now apply (WInner a b). }
  assert (INV : forall q, w_arg a (c + 1) q bs -> (plain_text a q /\ bs = []) \/ (exists nm v, a = ArgBoolean nm (AValue v) /\ q = lit "@" ++ dec_of_N (c + 1) /\ bs = [truth_block v (c + 1)]) \/
     (exists b, block_argument a b /\ w_block b (c + 1) true bs /\ q = lit "@" ++ dec_of_N (c + 1 + len bs - 1))).
  { intros q H. inversion H; subst; eauto 8. }
  assert (NIL : len (@nil block) = 0) by reflexivity.
  destruct a as [n v|n v|n v|n v]; cbn [conv_arg item_all] in *.
  3: destruct v as [t|b|i|]; [|rewrite (value_w bool_to_string) by auto..].
  3: { split.
       - intros E. assert (p = lit "@" ++ dec_of_N (c + 1)) as -> by congruence. assert (bs = [literal_raw t (c + 1)]) as -> by congruence.
         assert (c' = c + 1) as -> by congruence. split; [rewrite truth_block_eq; constructor|reflexivity].
       - intros [H ->]. apply INV in H as [[H _]|[(nm & v & E & -> & ->)|(b & B & _)]]; [inversion H| |inversion B].
         injection E as <- <-. rewrite truth_block_eq. reflexivity. }
  1, 2, 6: rewrite value_w by auto; destruct v as [t|b|i|].
  all: split; [intros H|intros [H E]].
  all: try (destruct H as (-> & -> & ->); rewrite NIL, N.add_0_r; split; [|reflexivity]; apply WPlain; constructor).
  all: try (destruct H as (H & E & ->); split; [|exact E]; apply (INN b); [constructor|exact E|exact H]).
  all: try contradiction.
  all: apply INV in H as [[H ->]|[(nm & v & X & _)|(x & B & H & ->)]]; try discriminate X.
  all: try (inversion H; fail); try (inversion B; fail).
  all: try (inversion H; subst; rewrite NIL, N.add_0_r; auto; fail).
  all: inversion B; subst; split; [exact H|]; split; [reflexivity|]; do 2 f_equal; lia.
Qed.
Lemma args_w items : items_all conv_w items -> forall c ps bs c', c' < 2 ^ 31 ->
  (conv_args convert_block items c = Ok (ps, bs, c') <-> w_args items (c + 1) ps bs /\ c' = c + len bs).
Proof.
  induction items as [|[t|a] items IH]; cbn [items_all conv_args]; intros Q c ps bs c' L.
  - split; [intros [= <- <- <-]; split; [constructor|cbn; lia]|]. intros [H ->]. inversion H; subst. cbn. now rewrite N.add_0_r.
  - rewrite IH by tauto. split; intros [H ->]; (split; [|reflexivity]); [now constructor|]. now inversion H; subst.
  - destruct Q as [Q1 Q2]. rewrite bind_ok. split.
    + intros ([[p b1] c1] & H1 & H). apply bind_ok in H as ([[ps' b2] c2] & H2 & E).
      assert (ps = p :: ps') as -> by congruence. assert (bs = b1 ++ b2) as -> by congruence. assert (c2 = c') as -> by congruence. clear E.
      apply IH in H2 as [H2 E2]; [|auto|auto]. apply arg_w in H1 as [H1 E1]; [|lia|auto]. subst. rewrite len_app. split; [|lia].
      econstructor; [exact H1|]. replace (c + 1 + len b1) with (c + len b1 + 1) by lia. exact H2.
    + intros [H ->]. inversion H as [| |x r n p b1 ps' b2 H1 H2]; subst. rewrite len_app in *. exists (p, b1, c + len b1). split; [apply arg_w; [lia|auto|auto]|].
      apply bind_ok. exists (ps', b2, c + (len b1 + len b2)). split; [|reflexivity]. apply IH; [auto|lia|]. split; [|lia].
      replace (c + len b1 + 1) with (c + 1 + len b1) by lia. exact H2.
Qed.
Lemma block_some b n last bs : w_block b n last bs -> 1 <= len bs.
Proof. intros H. inversion H; subst. rewrite len_cons. lia. Qed.
Lemma stack_w l : stack_all conv_w l -> forall c bs c', c' < 2 ^ 31 ->
  (conv_stack convert_block l c = Ok (bs, c') <-> w_stack l (c + 1) bs /\ c' = c + len bs).
Proof.
  induction l as [|b l IH]; cbn [stack_all conv_stack]; intros Q c bs c' L.
  - split; [intros [= <- <-]; split; [constructor|cbn; lia]|]. intros [H ->]. inversion H; subst. cbn. now rewrite N.add_0_r.
  - destruct Q as [Q1 Q2].
    assert (NX : forall n y, w_stack l n y -> match l with [] => 0 | _ => 1 end <= len y).
    { intros n y H. destruct l; [lia|]. inversion H as [|? ? ? ? ? X]; subst. apply block_some in X. rewrite len_app. lia. }
    assert (SM : forall c1, c1 + match l with [] => 0 | _ => 1 end < 2 ^ 31 -> c1 + (if match l with [] => true | _ => false end then 0 else 1) < 2 ^ 31) by (intros c1; destruct l; auto).
    rewrite bind_ok. split.
    + intros ([x c1] & H1 & H). apply bind_ok in H as ([y c2] & H2 & E).
      assert (bs = x ++ y) as -> by congruence. assert (c2 = c') as -> by congruence. clear E.
      apply IH in H2 as [H2 E2]; [|auto|auto]. pose proof (NX _ _ H2). apply Q1 in H1 as [H1 E1]; [|apply SM; lia]. subst. rewrite len_app. split; [|lia].
      constructor; [exact H1|]. replace (c + 1 + len x) with (c + len x + 1) by lia. exact H2.
    + intros [H ->]. inversion H as [|? ? ? x y H1 H2]; subst. rewrite len_app in *. pose proof (NX _ _ H2). exists (x, c + len x). split; [apply Q1; [apply SM; lia|auto]|].
      apply bind_ok. exists (y, c + (len x + len y)). split; [|reflexivity]. apply IH; [auto|lia|]. split; [|lia].
      replace (c + len x + 1) with (c + 1 + len x) by lia. exact H2.
Qed.
Lemma sub_w s : sub_all conv_w s -> forall c z bs c', c' < 2 ^ 31 ->
  (conv_sub convert_block s c = Ok (z, bs, c') <-> w_sub s (c + 1) z bs /\ c' = c + len bs).
Proof.
  intros Q c z bs c' L. split.
  - intros H. apply conv_sub_ptr in H; [|apply sub_all_intro, all_numbered]. destruct s as [[|b l]|]; cbn [sub_ptr] in H.
    + destruct H as (-> & -> & ->). split; [constructor|cbn; lia].
    + destruct H as (-> & _ & H). apply stack_w in H as [H E]; [|exact Q|exact L]. split; [|exact E]. replace c' with (c + 1 + len bs - 1) by lia. now constructor.
    + destruct H as (-> & -> & ->). split; [constructor|cbn; lia].
  - intros [H ->]. inversion H as [n|n|b l n bs' K]; subst; cbn [conv_sub].
    + cbn. now rewrite N.add_0_r.
    + cbn. now rewrite N.add_0_r.
    + assert (S : conv_stack convert_block (b :: l) c = Ok (bs, c + len bs)) by (apply stack_w; [exact Q|exact L|auto]).
      rewrite S. cbn [bind]. apply conv_stack_numbered in S as [S1 S2]; [|apply stack_all_intro, all_numbered].
      rewrite (last_id_ok c bs (c + len bs)); [|exact S1|intros E; apply S2 in E; discriminate|exact L]. cbn [bind].
      replace (Z.of_N (c + len bs) =? -1)%Z with false by lia. rewrite u32_of_i32_nat by exact L. do 3 f_equal. lia.
Qed.
Lemma all_w b : conv_w b.
Proof.
  induction b as [s1 s2 col op items ty Q1 Q2 Q] using ablock_induct. intros c last bs c' L. cbn [convert_block].
  assert (NXT : forall x, x = c' + 1 -> (if last then (-1)%Z else i32_of_u32 (c' + 1)) = (if last then (-1)%Z else Z.of_N x)).
  { intros x ->. destruct last; [reflexivity|]. unfold i32_of_u32. destruct (N.ltb_spec (c' + 1) 2147483648); [reflexivity|lia]. }
  rewrite bind_ok. split.
  - intros ([[ps ba] c1] & Ha & H). apply bind_ok in H as ([[z1 b1] c2] & H1 & H). apply bind_ok in H as ([[z2 b2] c3] & H2 & E).
    assert (c3 = c') as -> by congruence. rewrite spec_text_eq, type_letter_eq, type_names_eq in E.
    apply sub_w in H2 as [H2 E2]; [|auto|lia]. apply sub_w in H1 as [H1 E1]; [|auto|lia]. apply args_w in Ha as [Ha E0]; [|auto|lia].
    rewrite (NXT (c + 1 + 1 + len ba + len b1 + len b2)) in E by lia.
    match type of E with Ok (?x, _) = _ => assert (bs = x) as -> by congruence end.
    rewrite len_cons, !len_app. split; [|lia]. constructor; [exact Ha| |].
    + replace (c + 1 + 1 + len ba) with (c1 + 1) by lia. exact H1.
    + replace (c + 1 + 1 + len ba + len b1) with (c2 + 1) by lia. exact H2.
  - intros [H E]. inversion H as [? ? ? ? ? ? ? ? ps a z1 b1 z2 b2 Ha H1 H2]; subst. rewrite len_cons, !len_app in *.
    exists (ps, a, c + 1 + len a). split; [apply args_w; [auto|lia|split; [exact Ha|lia]]|].
    apply bind_ok. exists (z1, b1, c + 1 + len a + len b1). split; [apply sub_w; [auto|lia|split; [|lia]]|].
    { replace (c + 1 + len a + 1) with (c + 1 + 1 + len a) by lia. exact H1. }
    apply bind_ok. exists (z2, b2, c + 1 + len a + len b1 + len b2). split; [apply sub_w; [auto|lia|split; [|lia]]|].
    { replace (c + 1 + len a + len b1 + 1) with (c + 1 + 1 + len a + len b1) by lia. exact H2. }
    rewrite spec_text_eq, type_letter_eq, type_names_eq.
    replace (c + 1 + len a + len b1 + len b2) with (c + (1 + (len a + (len b1 + len b2)))) by lia.
    rewrite (NXT (c + 1 + 1 + len a + len b1 + len b2)) by lia. reflexivity.
Qed.
(** the number of blocks *)
Definition sized_w (b : ablock) : Prop := forall n last bs, w_block b n last bs -> length bs = block_size b.
Lemma stack_size_w l : stack_all sized_w l -> forall n bs, w_stack l n bs -> length bs = stack_size block_size l.
Proof.
  induction l as [|b l IH]; cbn [stack_all stack_size]; intros Q n bs H; inversion H as [|? ? ? x y H1 H2]; subst; [reflexivity|].
  rewrite app_length. destruct Q as [Q1 Q2]. rewrite (Q1 _ _ _ H1), (IH Q2 _ _ H2). reflexivity.
Qed.
Lemma all_sized_w b : sized_w b.
Proof.
  induction b as [s1 s2 col op items ty Q1 Q2 Q] using ablock_induct. intros n last bs H.
  inversion H as [? ? ? ? ? ? ? ? ps a z1 b1 z2 b2 Ha H1 H2]; subst. cbn [length block_size]. rewrite !app_length.
  assert (S : forall s n z bs, sub_all sized_w s -> w_sub s n z bs -> length bs = sub_size block_size s).
  { clear. intros s n z bs Q H. inversion H as [| |b l ? ? K]; subst; [reflexivity..|]. cbn [sub_size sub_all] in *. now apply (stack_size_w _ Q _ _ K). }
  rewrite (S _ _ _ _ Q1 H1), (S _ _ _ _ Q2 H2).
  assert (A : length a = items_size block_size items).
  { clear - Q Ha. revert ps a Ha. generalize (n + 1). clear n. induction items as [|[t|x] items IH]; cbn [items_all] in Q; intros n ps a H; inversion H as [| |? ? ? ? a1 ? a2 K1 K2]; subst; [reflexivity| |].
    - cbn [items_size item_size]. eapply IH; [apply Q|eassumption].
    - cbn [items_size]. rewrite app_length, (IH (proj2 Q) _ _ _ K2). f_equal. destruct Q as [Q _]. cbn [item_all] in Q.
      inversion K1 as [? ? ? X|? ? ?|? b ? ? X Y]; subst; [inversion X; subst; reflexivity|reflexivity|]. inversion X; subst; cbn [item_size value_size]; apply (Q _ _ _ Y). }
  rewrite A. lia.
Qed.
Lemma code_size l c : code_written l c -> length c = blocks_size l.
Proof. apply stack_size_w, stack_all_intro, all_sized_w. Qed.
Definition small (l : blocks) : Prop := 9 + N.of_nat (blocks_size l) < 2 ^ 31.
Lemma code_iff l c : small l -> (blocks_into l = Ok c <-> code_written l c).
Proof.
  intros L. unfold small in L. split.
  - intros H. pose proof (into_sized _ _ H) as S. apply into_stack in H. apply stack_w in H as [H _]; [exact H|apply stack_all_intro, all_w|]. rewrite S. exact L.
  - intros H. pose proof (code_size _ _ H) as S. unfold blocks_into, to_block_container. change (10 - 1) with 9.
    replace (conv_stack convert_block l 9) with (@Ok unit _ (c, 9 + len c)); [reflexivity|]. symmetry.
    apply stack_w; [apply stack_all_intro, all_w|unfold len; rewrite S; exact L|]. split; [exact H|reflexivity].
Qed.

(** ** Views *)
Lemma signed8_eq t : i8_of_u8 t = signed8 t.
Proof. reflexivity. Qed.
Lemma record_eq n p t : snd (flatten_node n p t) = view_record n (Some p) (signed8 t).
Proof.
  unfold flatten_node, view_record, type_of_view. destruct (vn_raw n).
  repeat match goal with x : image_config |- _ => destruct x | x : layout_config |- _ => destruct x | x : text_config |- _ => destruct x end.
  destruct (vn_view n) as [[]|e]; reflexivity.
Qed.
Lemma fab_eq n : set_av_parent_type (-1)%Z (set_av_parent None (snd (flatten_node n ROOT 0))) = view_record n None (-1).
Proof. rewrite record_eq. reflexivity. Qed.
Lemma kind_eq n : reported n = kind_number n.
Proof. unfold reported, kind_number. destruct (vn_view n) as [[]|e]; reflexivity. Qed.
Definition below_of (v : aview) : list android_view := snd (flatten_view v [] 0).
Lemma below_any v p t : snd (flatten_view v p t) = below_of v.
Proof. unfold below_of. destruct v as [n ch]. rewrite !flatten_view_eq. reflexivity. Qed.
Lemma flatten_heads vs p t : flatten_views vs (Some p) (Some t) = map (fun v => view_record (vnode v) (Some p) (signed8 t)) vs ++ concat (map below_of vs).
Proof.
  unfold flatten_views. rewrite map_map. f_equal.
  - apply map_ext. intros v. now rewrite flatten_view_fst, record_eq.
  - rewrite flat_map_concat_map, map_map. f_equal. apply map_ext. intros v. apply below_any.
Qed.
Lemma below_heads n ch : below_of (VNode n ch) = map (fun v => view_record (vnode v) (Some (vn_id n)) (signed8 (kind_number n))) ch ++ concat (map below_of ch).
Proof.
  unfold below_of at 1. rewrite flatten_view_eq. cbn [snd]. rewrite kind_eq. f_equal.
  - apply map_ext. intros v. now rewrite flatten_view_fst, record_eq.
  - rewrite flat_map_concat_map. f_equal. apply map_ext. intros v. apply below_any.
Qed.
Lemma below_iff v out : views_listed (vn_id (vnode v)) (kind_number (vnode v)) (vchildren v) out <-> out = below_of v.
Proof.
  revert out. induction v as [n ch IH] using aview_induct. intros out. cbn [vnode vchildren]. rewrite below_heads.
  assert (F : forall below, Forall2 (fun v o => views_listed (vn_id (vnode v)) (kind_number (vnode v)) (vchildren v) o) ch below <-> below = map below_of ch).
  { clear -IH. induction IH as [|v ch H _ IH]; intros below.
    - split; [intros K; now inversion K|]. intros ->. constructor.
    - split.
      + intros K. inversion K as [|? o ? os K1 K2]; subst. cbn [map]. f_equal; [now apply H|now apply IH].
      + intros ->. cbn [map]. constructor; [now apply H|now apply IH]. }
  split.
  - intros H. inversion H as [? ? ? below K]; subst. apply F in K as ->. reflexivity.
  - intros ->. constructor. now apply F.
Qed.
Lemma listed_iff p t vs out : views_listed p t vs out <-> flatten_views vs (Some p) (Some t) = out.
Proof.
  rewrite flatten_heads.
  assert (F : forall below, Forall2 (fun v o => views_listed (vn_id (vnode v)) (kind_number (vnode v)) (vchildren v) o) vs below <-> below = map below_of vs).
  { induction vs as [|v vs IH]; intros below.
    - split; [intros K; now inversion K|]. intros ->. constructor.
    - split.
      + intros K. inversion K as [|? o ? os K1 K2]; subst. cbn [map]. f_equal; [now apply below_iff|now apply IH].
      + intros ->. cbn [map]. constructor; [now apply below_iff|now apply IH]. }
  split.
  - intros H. inversion H as [? ? ? below K]; subst. apply F in K as ->. reflexivity.
  - intros <-. constructor. now apply F.
Qed.
Lemma layout_iff vs out : layout_written vs out <-> flatten_views vs None None = out.
Proof. apply listed_iff. Qed.

(** ** Names of files *)
Definition plain_segment (n : str) : Prop := n <> [] /\ n <> lit "." /\ n <> lit "..".
Definition skip_segment (n : str) : Prop := n = [] \/ n = lit ".".
Lemma comp_of_cases s : (skip_segment s /\ comp_of s = []) \/ (s = lit ".." /\ comp_of s = [ParentDir]) \/ (plain_segment s /\ comp_of s = [Normal s]).
Proof.
  unfold comp_of, skip_segment, plain_segment. destruct (str_eqb_spec s []) as [->|N1]; [auto|]. destruct (str_eqb_spec s (lit ".")) as [->|N2]; [auto|].
  destruct (str_eqb_spec s (lit "..")) as [->|N3]; [auto|]. right. right. auto.
Qed.
Definition last_plain (ss : list str) (n : str) : Prop := plain_segment n /\ exists a b, ss = a ++ n :: b /\ Forall skip_segment b.
Lemma file_name_snoc cs c : file_name_of (cs ++ [c]) = match c with Normal s => Some s | _ => None end.
Proof. unfold file_name_of. rewrite rev_app_distr. cbn. destruct c; reflexivity. Qed.
Lemma last_plain_snoc ss s n : last_plain (ss ++ [s]) n <-> (skip_segment s /\ last_plain ss n) \/ (plain_segment n /\ s = n).
Proof.
  unfold last_plain. split.
  - intros (P & a & b & E & F). destruct b as [|y b] using rev_ind.
    + apply app_inj_tail in E as [-> ->]. auto.
    + rewrite app_comm_cons, app_assoc in E. apply app_inj_tail in E as [-> ->]. apply Forall_app in F as [F1 F2]. inversion F2; subst. left. split; [auto|]. split; [auto|]. eauto.
  - intros [(K & P & a & b & -> & F)|(P & ->)].
    + split; [auto|]. exists a, (b ++ [s]). rewrite <- app_assoc. split; [reflexivity|]. apply Forall_app. auto.
    + split; [auto|]. exists ss, []. auto.
Qed.
Lemma plain_not_skip n : plain_segment n -> ~ skip_segment n.
Proof. unfold plain_segment, skip_segment. intuition congruence. Qed.
Lemma last_plain_flat (X : list comp) (h : str) t n : (file_name_of X = Some n <-> plain_segment n /\ h = n) ->
  (file_name_of (X ++ flat_map comp_of t) = Some n <-> last_plain (h :: t) n).
Proof.
  intros HX. induction t as [|s t IH] using rev_ind.
  - cbn [flat_map]. rewrite app_nil_r, HX. change [h] with ([] ++ [h]). rewrite last_plain_snoc. split; [auto|]. intros [(_ & _ & a & b & E & _)|H]; [|auto].
    symmetry in E. apply app_eq_nil in E as [_ E]. discriminate.
  - rewrite flat_map_app. cbn [flat_map]. rewrite app_nil_r. rewrite app_comm_cons, last_plain_snoc.
    destruct (comp_of_cases s) as [[S ->]|[[-> ->]|[S ->]]].
    + rewrite app_nil_r, IH. split; [auto|]. intros [[_ H]|[P ->]]; [exact H|]. now apply plain_not_skip in P.
    + rewrite app_assoc, file_name_snoc. split; [discriminate|]. intros [[[|] _]|[(_ & _ & P) E]]; [discriminate..|]. congruence.
    + rewrite app_assoc, file_name_snoc. split; [intros [= ->]; auto|]. intros [[K _]|[_ ->]]; [|reflexivity]. now apply plain_not_skip in S.
Qed.
Lemma file_name_segments p n : file_name_of (components p) = Some n <-> last_plain (split_on 47 p) n.
Proof.
  unfold components. change SLASH with 47. destruct (split_on 47 p) as [|h t] eqn:E; [now apply split_on_nonnil in E|]. apply last_plain_flat.
  destruct p as [|c p].
  - cbn in E. injection E as <- <-. cbn. split; [discriminate|]. intros [(P & _) <-]. now contradiction P.
  - destruct (str_eqb_spec h []) as [->|N1]; [cbn; split; [discriminate|]; intros [(P & _) <-]; now contradiction P|].
    destruct (str_eqb_spec h (lit ".")) as [->|N2]; [cbn; split; [discriminate|]; intros [(_ & P & _) <-]; now contradiction P|].
    destruct (comp_of_cases h) as [[[S|S] _]|[[-> ->]|[S ->]]]; [congruence..| |].
    + cbn. split; [discriminate|]. intros [(_ & _ & P) <-]. now contradiction P.
    + cbn. split; [intros [= <-]; auto|]. intros [_ ->]. reflexivity.
Qed.
Definition slashed (ss : list str) : str := flat_map (fun s => 47 :: s) ss.
Lemma join_slashed s ss : join 47 (s :: ss) = s ++ slashed ss.
Proof. revert s. induction ss as [|x ss IH]; intros s; [cbn; now rewrite app_nil_r|]. rewrite join_cons2, IH. reflexivity. Qed.
Lemma skipped_slashed s : skipped s <-> exists ss, Forall skip_segment ss /\ s = slashed ss.
Proof.
  split.
  - induction 1 as [|r _ (ss & F & ->)|r _ (ss & F & ->)]; [exists []; auto|exists ([] :: ss)|exists (lit "." :: ss)]; (split; [constructor; [|exact F]|reflexivity]); [now left|now right].
  - intros (ss & F & ->). induction F as [|x ss [->| ->] _ IH]; cbn [slashed flat_map app]; [constructor|now apply SkSlash|now apply SkDot].
Qed.
Lemma slashed_app a b : slashed (a ++ b) = slashed a ++ slashed b.
Proof. apply flat_map_app. Qed.
Lemma path_name_iff p n : path_name p n <-> file_name_of (components p) = Some n.
Proof.
  rewrite file_name_segments. unfold path_name, last_plain. split.
  - intros (P1 & P2 & P3 & NS & before & after & -> & B & S). split; [repeat split; auto|]. apply skipped_slashed in S as (ss & F & ->).
    assert (FN : Forall (fun s => ~ In 47 s) ss) by (eapply Forall_impl; [|exact F]; intros s [->| ->]; [intros []|intros [|[]]; discriminate]).
    assert (T : split_on 47 (n ++ slashed ss) = n :: ss).
    { rewrite <- join_slashed. apply split_join; [discriminate|]. now constructor. }
    destruct B as [->|(a & ->)]; [exists [], ss; auto|]. exists (split_on 47 a), ss. split; [|exact F]. rewrite <- app_assoc. cbn [app].
    rewrite <- T. clear. induction a as [|c a IH]; [reflexivity|]. cbn [app split_on]. rewrite IH. destruct (c =? 47); [reflexivity|].
    pose proof (split_on_nonnil 47 a). destruct (split_on 47 a); [contradiction|reflexivity].
  - intros ((P1 & P2 & P3) & a & b & E & F). assert (NS : ~ In 47 n).
    { pose proof (split_on_In 47 p) as I. rewrite E, Forall_app in I. destruct I as [_ I]. now inversion I. }
    repeat split; auto. rewrite <- (join_split 47 p), E. clear E. destruct a as [|h a].
    + exists [], (slashed b). cbn [app]. rewrite join_slashed. split; [reflexivity|]. split; [now left|]. apply skipped_slashed. eauto.
    + exists ((h ++ slashed a) ++ [47]), (slashed b). cbn [app]. rewrite join_slashed, slashed_app. cbn [slashed flat_map]. split; [rewrite <- !app_assoc; reflexivity|].
      split; [right; eauto|]. apply skipped_slashed. eauto.
Qed.
Lemma called_iff w n : file_called w n <-> full_name w n.
Proof.
  unfold full_name. destruct w as [p|i m t|i m t]; cbn [file_called get_full_name].
  - rewrite path_name_iff. destruct (file_name_of (components p)); cbn [unwrap]; split; congruence.
  - split; [intros ->; reflexivity|intros [= ->]; reflexivity].
  - split; [intros ->; reflexivity|intros [= ->]; reflexivity].
Qed.

(** ** The logic of a screen *)
Lemma cells_iff {A} (R : A -> str * list block -> Prop) (f : A -> cell) (l : list A) es :
  (forall a kc, In a l -> (R a kc <-> fst kc = fst (f a) /\ blocks_into (snd (f a)) = Ok (snd kc))) ->
  (Forall2 R l es <-> exists cs, Forall2 writes (map f l) cs /\ es = kbc (map f l) cs).
Proof.
  revert es. induction l as [|a l IH]; intros es H.
  - split; [intros K; inversion K; exists []; split; [constructor|reflexivity]|]. intros (cs & K & ->). constructor.
  - split.
    + intros K. inversion K as [|? [k c] ? es' K1 K2]; subst. apply (H a) in K1 as [E1 E2]; [|now left]. apply IH in K2 as (cs & K2 & ->); [|intros b kc I; apply H; now right].
      cbn in E1, E2. subst. exists (c :: cs). split; [constructor; [exact E2|exact K2]|reflexivity].
    + intros (cs & K & ->). cbn [map] in K. inversion K as [|? c ? cs' K1 K2]; subst. cbn [map kbc combine]. constructor.
      * apply H; [now left|]. split; [reflexivity|exact K1].
      * apply IH; [intros b kc I; apply H; now right|]. eauto.
Qed.
Lemma container_iff e k : container_name e k <-> k = get_block_container_id e.
Proof.
  unfold container_name, get_block_container_id, container_id. destruct (ae_type e) as [i|i t|]; [tauto..|]. unfold ON_CREATE.
  destruct (str_eqb_spec (ae_name e) (lit "onCreate")) as [->|N].
  - split; [intros [[_ ->]|[N _]]; [reflexivity|now contradiction N]|]. intros ->. left. split; reflexivity.
  - split; [intros [[E _]|[_ ->]]; [contradiction|reflexivity]|]. intros ->. right. auto.
Qed.
Lemma component_iff n k c : component_record n k c <-> c = into_parser_component k n.
Proof.
  unfold component_record. split.
  - destruct c as [i p1 p2 p3 t]. cbn [co_id co_param1 co_param2 co_param3 co_type]. intros (-> & -> & -> & E). destruct k; injection E as -> ->; reflexivity.
  - intros ->. destruct k; repeat split.
Qed.
Lemma Forall2_eq_map {A B} (f : A -> B) (R : A -> B -> Prop) l m : (forall a b, R a b <-> b = f a) -> (Forall2 R l m <-> m = map f l).
Proof.
  intros H. split.
  - induction 1 as [|a b l m K _ ->]; [reflexivity|]. apply H in K as ->. reflexivity.
  - intros ->. induction l; cbn; constructor; [now apply H|auto].
Qed.
Lemma event_record_eq e : raw_event e = event_record e.
Proof. unfold raw_event, event_record, into_parser_event. cbn [fst]. destruct (ae_type e); reflexivity. Qed.
Definition codes_of (s : screen) : list blocks := map ae_code (sc_events s) ++ map (fun m => am_code (snd m)) (sc_more_blocks s).
Lemma logic_iff s l : Forall small (codes_of s) -> (screen_logic_of s = Ok l <-> logic_written s l).
Proof.
  intros SM. apply Forall_app in SM as [SE SMB]. rewrite Forall_map, Forall_forall in SE, SMB.
  assert (CE : forall es, Forall2 event_container (sc_events s) es <-> exists cs, Forall2 writes (map ecell (sc_events s)) cs /\ es = kbc (map ecell (sc_events s)) cs).
  { intros es. apply cells_iff. intros e [k c] I. unfold event_container. cbn [fst snd ecell]. rewrite container_iff, (code_iff _ _ (SE e I)). reflexivity. }
  assert (CM : forall ms, Forall2 more_block_written (sc_more_blocks s) ms <-> exists cs, Forall2 writes (map mcell (sc_more_blocks s)) cs /\ ms = kbc (map mcell (sc_more_blocks s)) cs).
  { intros ms. apply cells_iff. intros m [k c] I. unfold more_block_written. cbn [fst snd mcell]. unfold more_block_container. rewrite (code_iff _ _ (SMB m I)). reflexivity. }
  assert (EV : raw_events (sc_events s) = map event_record (filter (fun e => negb (str_eqb (ae_name e) (lit "onCreate"))) (sc_events s))).
  { unfold raw_events. apply map_ext. apply event_record_eq. }
  assert (MB : scollect (raw_more_blocks (sc_more_blocks s)) = keep_last (map (fun m => (fst m, {| mb_id := am_name (snd m); mb_spec := spec_text (am_spec (snd m)) |})) (sc_more_blocks s))).
  { rewrite <- keep_last_fold. unfold scollect, lcollect. f_equal. unfold raw_more_blocks. apply map_ext. intros [k m]. cbn [fst snd].
    unfold into_parser_more_block. cbn [fst]. do 2 f_equal. rewrite content_to_string_join. reflexivity. }
  rewrite screen_logic_iff. unfold logic_written. split.
  - intros (cs & W & ->). unfold cells in W. apply Forall2_app_inv_l in W as (ce & cm & W1 & W2 & ->). cbn [logic_with sl_name sl_variables sl_list_variables sl_components sl_events sl_more_blocks sl_block_containers].
    split; [reflexivity|]. split; [reflexivity|]. split; [reflexivity|]. split; [|split; [now rewrite EV|split; [now rewrite MB|]]].
    + eexists. split; [reflexivity|]. apply (Forall2_eq_map (fun kv => into_parser_component (snd kv) (fst kv))); [|reflexivity]. intros [n k] c. apply component_iff.
    + exists (kbc (map ecell (sc_events s)) ce), (kbc (map mcell (sc_more_blocks s)) cm). split; [apply CE; eauto|]. split; [apply CM; eauto|].
      rewrite <- keep_last_fold. unfold ins_all, cells. now rewrite kbc_app by (eapply Forall2_len; eauto).
  - intros (E1 & E2 & E3 & (cs & E4 & F) & E5 & E6 & es & ms & K1 & K2 & E7). apply CE in K1 as (ce & W1 & ->). apply CM in K2 as (cm & W2 & ->).
    exists (ce ++ cm). split; [apply Forall2_app; auto|]. destruct l as [nm bc v lv co ev mb]. cbn [sl_name sl_variables sl_list_variables sl_components sl_events sl_more_blocks sl_block_containers] in *.
    subst nm v lv co ev mb. unfold logic_with. rewrite EV, MB. f_equal.
    + rewrite E7, <- keep_last_fold. unfold ins_all, cells. now rewrite kbc_app by (eapply Forall2_len; eauto).
    + f_equal. apply (Forall2_eq_map (fun kv => into_parser_component (snd kv) (fst kv))) in F; [exact F|]. intros [n k] c. apply component_iff.
Qed.

(** ** The project *)
Lemma resources_iff auto l is files : put_resources auto l [] = Ok (is, files) <->
  Forall2 resource_record l is /\ exists ns, Forall2 full_name (map snd l) ns /\ is = map (fun x => {| ri_full_name := snd x; ri_name := fst x; ri_type := 1 |}) (combine (map fst l) ns) /\
    files = (if auto then [] else fold_left (fun m x => sinsert (fst x) (snd x) m) (combine ns (map snd l)) []).
Proof.
  rewrite put_resources_iff. split; [|intros [_ H]; exact H]. intros (ns & F & -> & ->). split; [|eauto]. clear -F. revert ns F.
  induction l as [|[id w] l IH]; intros ns F; cbn [map] in F; inversion F as [|? n ? ns' F1 F2]; subst; cbn [map combine fst snd]; constructor.
  - split; [reflexivity|]. split; [now apply called_iff|reflexivity].
  - now apply IH.
Qed.
Lemma resources_back auto l is : Forall2 resource_record l is -> exists files, put_resources auto l [] = Ok (is, files) /\ (auto = true -> files = []).
Proof.
  intros H.
  assert (X : exists ns, Forall2 full_name (map snd l) ns /\ is = map (fun x => {| ri_full_name := snd x; ri_name := fst x; ri_type := 1 |}) (combine (map fst l) ns)).
  { induction H as [|[id w] [fn nm ty] l is (E1 & E2 & E3) _ (ns & F & ->)]; [exists []; split; constructor|]. cbn in *. subst. exists (fn :: ns). split; [constructor; [now apply called_iff|exact F]|reflexivity]. }
  destruct X as (ns & F & ->). eexists. split; [apply put_resources_iff; exists ns; eauto|]. now intros ->.
Qed.
Lemma put_screens_iff l : forall lgs lays fabs lgs' lays' fabs', put_screens l lgs lays fabs = Ok (lgs', lays', fabs') <->
  exists ls, Forall2 (named_written sc_java_name (fun s lg => screen_logic_of s = Ok lg)) l ls /\
    lgs' = fold_left (fun m kv => sinsert (fst kv) (snd kv) m) ls lgs /\
    lays' = fold_left (fun m kv => sinsert (fst kv) (snd kv) m) (map (fun s => (sc_layout_name s, flatten_views (sc_layout s) None None)) l) lays /\
    fabs' = fold_left (fun m kv => sinsert (fst kv) (snd kv) m)
      (flat_map (fun s => match fab_raw s with Some x => [(sc_layout_name s, x)] | None => [] end) l) fabs.
Proof.
  induction l as [|s l IH]; intros lgs lays fabs lgs' lays' fabs'; rewrite put_screens_eq.
  - split; [intros [= <- <- <-]; exists []; repeat split; constructor|]. intros (ls & F & -> & -> & ->). inversion F. reflexivity.
  - rewrite bind_ok. split.
    + intros (lg & L & H). apply IH in H as (ls & F & -> & -> & ->). exists ((sc_java_name s, lg) :: ls). split; [constructor; [now split|exact F]|].
      split; [reflexivity|]. split; [reflexivity|]. cbn [flat_map]. rewrite fold_left_app. destruct (fab_raw s); reflexivity.
    + intros (ls & F & -> & -> & ->). inversion F as [|? [k lg] ? ls' [E1 E2] F2]; subst. cbn in E1, E2. subst. exists lg. split; [exact E2|]. apply IH. exists ls'.
      split; [exact F2|]. split; [reflexivity|]. split; [reflexivity|]. cbn [flat_map]. rewrite fold_left_app. destruct (fab_raw s); reflexivity.
Qed.
Lemma Forall2_iff {A B} (P Q : A -> B -> Prop) l m : (forall a b, In a l -> (P a b <-> Q a b)) -> (Forall2 P l m <-> Forall2 Q l m).
Proof.
  intros H. split; intros F; revert H; induction F as [|a b l m K F IH]; intros H; constructor; try (apply H; [now left|exact K]); apply IH; intros x y I; apply H; now right.
Qed.
Lemma into_iff p q : project_into p = Ok q <->
  exists lays imf sof fof,
    put_screens (sp_screens p) [] [] [] = Ok (pp_logic q, lays, vw_fabs (pp_view q)) /\
    put_resources (sp_automatic p) (re_images (sp_resources p)) [] = Ok (rs_images (pp_resource q), imf) /\
    put_resources (sp_automatic p) (re_sounds (sp_resources p)) [] = Ok (rs_sounds (pp_resource q), sof) /\
    put_resources (sp_automatic p) (re_fonts (sp_resources p)) [] = Ok (rs_fonts (pp_resource q), fof) /\
    vw_layouts (pp_view q) = put_custom_views (sp_custom_views p) lays /\
    pp_project q = project_of p /\ pp_library q = library_of (sp_libraries p) /\
    f_activities (pp_file q) = map activity_of (sp_screens p) /\ f_custom_views (pp_file q) = map custom_view_item (sp_custom_views p) /\
    pp_resource_files q = (if sp_automatic p then Some {| rf_custom_icon := sp_custom_icon p; rf_images := imf; rf_sounds := sof; rf_fonts := fof |} else None).
Proof.
  split; [apply into_inv|]. intros (lays & imf & sof & fof & S & I1 & I2 & I3 & E1 & E2 & E3 & E4 & E5 & E6). unfold project_into. rewrite S. cbn [bind]. rewrite I1. cbn [bind]. rewrite I2. cbn [bind].
  rewrite I3. cbn [bind]. destruct q as [qp [qa qc] ql [r1 r2 r3] [vl vf] qg qr]. cbn in *. subst. reflexivity.
Qed.
Lemma libraries_iff l q : libraries_written l q <-> q = library_of l.
Proof.
  unfold libraries_written, library_record. destruct q as [[? ? ? ? ? ? ? ?] [? ? ? ? ? ? ? ?] [? ? ? ? ? ? ? ?] [? ? ? ? ? ? ? ?]]. unfold library_of. cbn. split.
  - destruct l as [c [[? ? ? ?]|] [[? ?]|] [[?]|]]; destruct c; cbn; intros; repeat match goal with H : _ /\ _ |- _ => destruct H end; subst; reflexivity.
  - destruct l as [c [[? ? ? ?]|] [[? ?]|] [[?]|]]; destruct c; cbn; intros [=]; subst; repeat split.
Qed.
Lemma written_iff p q : Forall small (codes p) -> (project_into p = Ok q <-> written_as p q).
Proof.
  intros SM. rewrite into_iff. unfold written_as.
  assert (SS : forall s, In s (sp_screens p) -> Forall small (codes_of s)).
  { intros s I. rewrite Forall_forall in *. intros x X. apply SM. apply in_flat_map. exists s. auto. }
  assert (LG : forall ls, Forall2 (named_written sc_java_name (fun s lg => screen_logic_of s = Ok lg)) (sp_screens p) ls <-> Forall2 (named_written sc_java_name logic_written) (sp_screens p) ls).
  { intros ls. apply Forall2_iff. intros s [k lg] I. unfold named_written. cbn [fst snd]. now rewrite logic_iff by auto. }
  assert (LY : forall l, Forall2 (named_written fst (fun x => layout_written (snd x))) (layouts_of p) l <-> l = map (fun x => (fst x, flatten_views (snd x) None None)) (layouts_of p)).
  { intros l. apply Forall2_eq_map. intros [n vs] [k out]. unfold named_written. cbn [fst snd]. rewrite layout_iff. split; [intros [-> <-]; reflexivity|intros [= -> ->]; auto]. }
  assert (LY2 : keep_last (map (fun x => (fst x, flatten_views (snd x) None None)) (layouts_of p)) =
    put_custom_views (sp_custom_views p) (fold_left (fun m kv => sinsert (fst kv) (snd kv) m) (map (fun s => (sc_layout_name s, flatten_views (sc_layout s) None None)) (sp_screens p)) [])).
  { rewrite <- keep_last_fold. unfold layouts_of. rewrite map_app, !map_map, fold_left_app. cbn [fst snd]. unfold put_custom_views.
    generalize (fold_left (fun m kv => sinsert (fst kv) (snd kv) m) (map (fun s => (sc_layout_name s, flatten_views (sc_layout s) None None)) (sp_screens p)) []).
    induction (sp_custom_views p) as [|c l IH]; intros m; cbn [map fold_left]; auto. }
  assert (FB : forall l, Forall2 (named_written fst (fun x => fab_written (snd x))) (fabs_of p) l <->
     l = flat_map (fun s => match fab_raw s with Some x => [(sc_layout_name s, x)] | None => [] end) (sp_screens p)).
  { intros l. rewrite (Forall2_eq_map (fun x => (fst x, view_record (vnode (snd x)) None (-1)))).
    - unfold fabs_of. replace (map (fun x => (fst x, view_record (vnode (snd x)) None (-1))) (flat_map (fun s => match sc_fab s with Some v => [(sc_layout_name s, v)] | None => [] end) (sp_screens p)))
        with (flat_map (fun s => match fab_raw s with Some x => [(sc_layout_name s, x)] | None => [] end) (sp_screens p)); [tauto|].
      clear. induction (sp_screens p) as [|s r IH]; [reflexivity|]. cbn [flat_map]. rewrite map_app, IH. f_equal. unfold fab_raw. destruct (sc_fab s); [|reflexivity]. cbn [option_map map fst snd]. now rewrite fab_eq.
    - intros [n v] [k x]. unfold named_written, fab_written. cbn [fst snd]. split; [intros [-> ->]; reflexivity|intros [= -> ->]; auto]. }
  split.
  - intros (lays & imf & sof & fof & S & I1 & I2 & I3 & E1 & E2 & E3 & E4 & E5 & E6). apply put_screens_iff in S as (ls & F & G1 & -> & G3).
    apply resources_iff in I1 as (R1 & ns1 & _ & _ & J1). apply resources_iff in I2 as (R2 & ns2 & _ & _ & J2). apply resources_iff in I3 as (R3 & ns3 & _ & _ & J3).
    split; [exact E2|]. split; [destruct (pp_file q); cbn in *; subst; reflexivity|]. split; [now apply libraries_iff|].
    split; [exact R1|]. split; [exact R2|]. split; [exact R3|].
    split; [eexists; split; [now apply LY|now rewrite LY2]|]. split; [eexists; split; [now apply FB|now rewrite G3, keep_last_fold]|].
    split; [exists ls; split; [now apply LG|now rewrite G1, keep_last_fold]|]. rewrite E6. destruct (sp_automatic p); [|reflexivity]. now subst.
  - intros (E1 & E2 & E3 & R1 & R2 & R3 & (l1 & L1 & K1) & (l2 & L2 & K2) & (l3 & L3 & K3) & E4).
    apply LY in L1 as ->. apply FB in L2 as ->. apply LG in L3.
    destruct (resources_back (sp_automatic p) _ _ R1) as (f1 & I1 & J1). destruct (resources_back (sp_automatic p) _ _ R2) as (f2 & I2 & J2). destruct (resources_back (sp_automatic p) _ _ R3) as (f3 & I3 & J3).
    eexists. exists f1, f2, f3. split; [|split; [exact I1|split; [exact I2|split; [exact I3|]]]].
    + apply put_screens_iff. exists l3. split; [exact L3|]. split; [now rewrite K3, keep_last_fold|]. split; [reflexivity|]. now rewrite K2, keep_last_fold.
    + split; [now rewrite K1, LY2|]. split; [exact E1|]. split; [now apply libraries_iff|]. rewrite E2. split; [reflexivity|]. split; [reflexivity|]. rewrite E4.
      destruct (sp_automatic p); [|reflexivity]. now rewrite J1, J2, J3.
Qed.

(** ** Outcome *)
Definition noerr {E A} (x : res E A) : Prop := forall e, x <> Err e.
Lemma noerr_ok {E A} (a : A) : noerr (@Ok E A a).
Proof. intros e. discriminate. Qed.
Lemma noerr_bind {E A C} (x : res E A) (f : A -> res E C) : noerr x -> (forall a, noerr (f a)) -> noerr (bind x f).
Proof. intros H K e. destruct x; cbn [bind]; [apply K|intros [= ->]; now apply (H e)|discriminate]. Qed.
Lemma noerr_unwrap {E A} (o : option A) : noerr (@unwrap E A o).
Proof. destruct o; intros e; discriminate. Qed.
Definition conv_noerr (b : ablock) : Prop := forall c last, noerr (convert_block b c last).
Lemma stack_noerr l : stack_all conv_noerr l -> forall c, noerr (conv_stack convert_block l c).
Proof.
  induction l as [|b l IH]; cbn [stack_all conv_stack]; intros Q c; [apply noerr_ok|]. apply noerr_bind; [apply Q|]. intros [x c1]. apply noerr_bind; [apply IH, Q|]. intros [y c2]. apply noerr_ok.
Qed.
Lemma sub_noerr s : sub_all conv_noerr s -> forall c, noerr (conv_sub convert_block s c).
Proof.
  destruct s as [l|]; cbn [sub_all conv_sub]; intros Q c; [|apply noerr_ok]. apply noerr_bind; [now apply stack_noerr|]. intros [bs ?]. apply noerr_bind; [|intros z; apply noerr_ok].
  unfold last_id. destruct (rev bs); [apply noerr_ok|apply noerr_unwrap].
Qed.
Lemma all_noerr b : conv_noerr b.
Proof.
  induction b as [s1 s2 col op items ty Q1 Q2 Q] using ablock_induct. intros c last. cbn [convert_block]. apply noerr_bind.
  - generalize (c + 1). clear c. induction items as [|[t|a] items IH]; cbn [items_all conv_args] in *; intros c; [apply noerr_ok|apply IH, Q|]. destruct Q as [Qa Q]. apply noerr_bind.
    + assert (V : forall T (f : T -> str) v, value_all conv_noerr v -> noerr (conv_value convert_block f v c)).
      { intros T f [t|b|i|]; cbn [value_all conv_value]; intros K; [apply noerr_ok| |intros e; discriminate|apply noerr_ok]. apply noerr_bind; [apply K|]. intros [bs c1]. apply noerr_ok. }
      destruct a as [n v|n v|n v|n v]; cbn [item_all conv_arg] in *; try (now apply V). destruct v; [apply noerr_ok|now apply V..].
    + intros [[p bs] c1]. apply noerr_bind; [now apply IH|]. intros [[ps bs'] c2]. apply noerr_ok.
  - intros [[ps ba] c1]. apply noerr_bind; [now apply sub_noerr|]. intros [[z1 b1] c2]. apply noerr_bind; [now apply sub_noerr|]. intros [[z2 b2] c3]. apply noerr_ok.
Qed.
Lemma blocks_noerr l : noerr (blocks_into l).
Proof.
  unfold blocks_into, to_block_container. change (10 - 1) with 9. pose proof (stack_noerr l (stack_all_intro _ _ all_noerr) 9) as H. intros e.
  destruct (conv_stack convert_block l 9) as [[bs c]|e'|]; cbn; try discriminate. intros _. now apply (H e').
Qed.
Lemma logic_noerr s : noerr (screen_logic_of s).
Proof.
  unfold screen_logic_of, to_screen_logic. apply noerr_bind.
  - generalize (@nil (str * block_container)). induction (sc_events s) as [|e l IH]; intros bc; cbn [put_events]; [apply noerr_ok|]. cbn [into_parser_event].
    apply noerr_bind; [apply blocks_noerr|]. intros c. apply noerr_bind; [apply IH|]. intros [es bc']. apply noerr_ok.
  - intros [es bc]. apply noerr_bind; [|intros [ms bc']; apply noerr_ok]. revert bc. induction (sc_more_blocks s) as [|[id m] l IH]; intros bc; cbn [put_more_blocks]; [apply noerr_ok|]. cbn [into_parser_more_block].
    apply noerr_bind; [apply blocks_noerr|]. intros c. apply noerr_bind; [apply IH|]. intros [ms bc']. apply noerr_ok.
Qed.
Lemma resources_noerr auto l : forall files, noerr (put_resources auto l files).
Proof.
  induction l as [|[id w] l IH]; intros files; cbn [put_resources]; [apply noerr_ok|]. apply noerr_bind.
  - destruct w; cbn [get_full_name]; [apply noerr_unwrap|apply noerr_ok..].
  - intros n. apply noerr_bind; [apply IH|]. intros [is f]. apply noerr_ok.
Qed.
Lemma screens_noerr l : forall lgs lays fabs, noerr (put_screens l lgs lays fabs).
Proof.
  induction l as [|s l IH]; intros lgs lays fabs; rewrite put_screens_eq; [apply noerr_ok|]. apply noerr_bind; [apply logic_noerr|]. intros lg. apply IH.
Qed.
Lemma into_noerr p : noerr (project_into p).
Proof.
  unfold project_into. apply noerr_bind; [apply screens_noerr|]. intros [[lgs lays] fabs]. do 3 (apply noerr_bind; [apply resources_noerr|]; intros [? ?]). apply noerr_ok.
Qed.
Lemma into_ok_iff p : Forall small (codes p) ->
  ((exists q, project_into p = Ok q) <-> Forall (Forall no_holes) (codes p) /\ Forall (fun w => exists n, file_called w n) (resource_wrappers p)).
Proof.
  intros SM.
  assert (CD : forall s, In s (sp_screens p) -> (forall x, In x (codes_of s) -> In x (codes p))).
  { intros s I x X. apply in_flat_map. eauto. }
  assert (RS : forall auto l, (exists r, put_resources auto l [] = Ok r) <-> Forall (fun w => exists n, file_called w n) (map snd l)).
  { intros auto l. split.
    - intros ([is f] & H). apply resources_iff in H as [F _]. induction F as [|kw x l is (_ & F & _) _ IH]; cbn [map]; constructor; eauto.
    - intros H. apply put_resources_ok. rewrite Forall_map in H. eapply Forall_impl; [|exact H]. intros kv (n & N). exists n. now apply called_iff. }
  assert (LG : forall s, In s (sp_screens p) -> ((exists lg, screen_logic_of s = Ok lg) <-> Forall (Forall no_holes) (codes_of s))).
  { intros s I. assert (SM' : Forall small (codes_of s)) by (rewrite Forall_forall in *; eauto).
    assert (CS : codes_of s = map snd (cells s)) by (unfold codes_of, cells; rewrite map_app, !map_map; reflexivity).
    rewrite CS in *. split.
    - intros (lg & L). apply screen_logic_iff in L as (cs & W & _). rewrite Forall_map in *. clear -W SM'. induction W as [|y c l cs W _ IH]; [constructor|]. inversion SM'; subst.
      constructor; [|now apply IH]. apply into_total; [assumption|]. exists c. exact W.
    - intros H. rewrite Forall_map in *. assert (W : exists cs, Forall2 writes (cells s) cs).
      { clear -H SM'. induction (cells s) as [|y l IH]; [exists []; constructor|]. inversion H; inversion SM'; subst. assert (X : exists cs, Forall2 writes l cs) by (apply IH; assumption). destruct X as (cs & W).
        match goal with K : Forall no_holes (snd y) |- _ => apply into_total in K as (c & K); [|assumption] end. exists (c :: cs). constructor; auto. }
      destruct W as (cs & W). exists (logic_with s cs). apply screen_logic_iff. eauto. }
  unfold resource_wrappers. rewrite !map_app, !Forall_app. split.
  - intros (q & H). apply into_inv in H as (lays & imf & sof & fof & S & I1 & I2 & I3 & _). split.
    + apply put_screens_iff in S as (ls & F & _). apply Forall_forall. intros x X. apply in_flat_map in X as (s & I & X).
      assert (G : Forall (Forall no_holes) (codes_of s)); [|rewrite Forall_forall in G; now apply G].
      apply (LG s I). clear -F I. induction F as [|a [k lg] l ls [_ K] _ IH]; [destruct I|]. destruct I as [->|I]; [exists lg; exact K|auto].
    + split; [apply (RS (sp_automatic p)); eauto|]. split; apply (RS (sp_automatic p)); eauto.
  - intros (C & R1 & R2 & R3). apply (RS (sp_automatic p)) in R1 as ([i1 f1] & R1). apply (RS (sp_automatic p)) in R2 as ([i2 f2] & R2). apply (RS (sp_automatic p)) in R3 as ([i3 f3] & R3).
    destruct (put_screens_ok (sp_screens p)) with (lgs := @nil (str * screen_logic)) (lays := @nil (str * layout)) (fabs := @nil (str * android_view)) as ([[a b] c] & S).
    { apply Forall_forall. intros s I. apply (LG s I). rewrite Forall_forall in *. eauto. }
    unfold project_into. rewrite S. cbn [bind]. rewrite R1. cbn [bind]. rewrite R2. cbn [bind]. rewrite R3. cbn [bind]. eauto.
Qed.
