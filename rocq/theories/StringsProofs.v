(** Proofs that strings stay valid strings: what is written from valid strings is valid (C92). *)
From Verif Require Import Base Spec Str Dec Flt Json Recs M_Color M_Date M_Raw M_Project M_File M_Library M_Resource M_View M_Logic M_Parsed
  A_Block A_View A_Screen A_Project SpecStrings SpecBlock BlockWriteProofs.

(** ** Characters and strings *)
Definition scal (c : char) : Prop := c < 0xD800 \/ 0xE000 <= c < 0x110000.
Definition oks (l : list str) : Prop := Forall string_ok l.
Lemma ok_nil : string_ok [].
Proof. constructor. Qed.
Lemma ok_cons c s : string_ok (c :: s) <-> scal c /\ string_ok s.
Proof. unfold string_ok, scal. now rewrite Forall_cons_iff. Qed.
Lemma ok_app a b : string_ok (a ++ b) <-> string_ok a /\ string_ok b.
Proof. apply Forall_app. Qed.
Lemma ok_incl a b : incl a b -> string_ok b -> string_ok a.
Proof. unfold string_ok. rewrite !Forall_forall. intros H K x I. auto. Qed.
Lemma small_scal c : c < 256 -> scal c.
Proof. unfold scal. intros H. left. eapply N.lt_trans; [exact H|reflexivity]. Qed.
Lemma ok_lit s : string_ok (lit s).
Proof.
  unfold lit. apply Forall_forall. intros c H. apply in_map_iff in H as (a & <- & _). apply small_scal. destruct a as [[] [] [] [] [] [] [] []]; reflexivity.
Qed.
Lemma ok_digits s : forallb is_digit s = true -> string_ok s.
Proof.
  intros H. apply Forall_forall. intros c I. rewrite forallb_forall in H. apply H in I. apply is_digit_range in I. apply small_scal. lia.
Qed.
Lemma ok_dec n : string_ok (dec_of_N n).
Proof. apply ok_digits, dec_of_N_digits. Qed.
Lemma ok_decZ z : string_ok (dec_of_Z z).
Proof. destruct z; cbn [dec_of_Z]; try apply ok_dec. apply ok_cons. split; [apply small_scal; reflexivity|apply ok_dec]. Qed.
Lemma ok_repeat c n : scal c -> string_ok (repeat c n).
Proof. intros H. apply Forall_forall. intros x I. apply repeat_spec in I. now subst. Qed.
Lemma ok_rev s : string_ok s -> string_ok (rev s).
Proof. apply ok_incl. intros x. now rewrite <- in_rev. Qed.
Lemma incl_trim_start s : incl (trim_start s) s.
Proof. induction s as [|c r IH]; cbn; [easy|]. destruct (is_ws c); [now apply incl_tl|apply incl_refl]. Qed.
Lemma incl_trim_end s : incl (trim_end s) s.
Proof. unfold trim_end. intros x I. apply in_rev in I. apply incl_trim_start in I. now apply in_rev. Qed.
Lemma ok_trim_end s : string_ok s -> string_ok (trim_end s).
Proof. apply ok_incl, incl_trim_end. Qed.
Lemma ok_trim s : string_ok s -> string_ok (trim s).
Proof. apply ok_incl. intros x I. apply incl_trim_end in I. now apply incl_trim_start. Qed.
Lemma ok_concat l : oks l -> string_ok (concat l).
Proof. induction 1; cbn; [constructor|]. now apply ok_app. Qed.
Lemma ok_join c l : scal c -> oks l -> string_ok (join c l).
Proof.
  intros C. induction 1 as [|x l H K IH]; [constructor|]. cbn [join]. destruct l; auto. apply ok_app. split; auto. now apply ok_cons.
Qed.
Lemma ok_fold {A} (f : str -> A -> str) l : (forall acc x, In x l -> string_ok acc -> string_ok (f acc x)) ->
  forall acc, string_ok acc -> string_ok (fold_left f l acc).
Proof. induction l as [|x r IH]; cbn [fold_left]; auto. intros H acc K. apply IH; [intros; apply H; cbn; auto|]. apply H; cbn; auto. Qed.
Lemma incl_removelast {A} (l : list A) : incl (removelast l) l.
Proof. induction l as [|x [|y r] IH]; try easy. intros z [<-|I]; [now left|right; auto]. Qed.
Lemma incl_firstn {A} n (l : list A) : incl (firstn n l) l.
Proof. revert n; induction l; intros [|n]; cbn; try easy. intros z [<-|I]; [now left|right]. eapply IHl; eauto. Qed.
Lemma incl_skipn {A} n (l : list A) : incl (skipn n l) l.
Proof. revert n; induction l; intros [|n]; cbn; try easy; try apply incl_refl. apply incl_tl. auto. Qed.

(** ** Lists of strings *)
Lemma oks_app a b : oks (a ++ b) <-> oks a /\ oks b.
Proof. apply Forall_app. Qed.
Lemma oks_cons s l : oks (s :: l) <-> string_ok s /\ oks l.
Proof. unfold oks. now rewrite Forall_cons_iff. Qed.
Lemma oks_nil : oks [] <-> True.
Proof. split; constructor. Qed.
Lemma oks_flat {A} (f : A -> list str) l : oks (flat_map f l) <-> forall x, In x l -> oks (f x).
Proof.
  induction l as [|x r IH]; cbn [flat_map]; [split; [easy|constructor]|]. rewrite oks_app, IH. split.
  - intros [H K] y [<-|I]; auto.
  - intros H. split; [apply H; cbn; auto|]. intros y I. apply H. now right.
Qed.
Lemma oks_map {A} (f : A -> str) l : oks (map f l) <-> forall x, In x l -> string_ok (f x).
Proof.
  unfold oks. rewrite Forall_forall. split.
  - intros H x I. apply H. now apply in_map.
  - intros H s I. apply in_map_iff in I as (x & <- & I). auto.
Qed.
Lemma oks_named {A} (f : A -> list str) (m : smap A) : oks (named f m) <-> forall k v, In (k, v) m -> string_ok k /\ oks (f v).
Proof.
  unfold named. rewrite oks_flat. split.
  - intros H k v I. apply H in I. cbn [fst snd] in I. now apply oks_cons.
  - intros H [k v] I. apply H in I. cbn [fst snd]. now apply oks_cons.
Qed.
Lemma oks_maybe {A} (f : A -> list str) o : oks (maybe f o) <-> forall x, o = Some x -> oks (f x).
Proof. destruct o; cbn [maybe]; split; try congruence; auto. intros _. constructor. Qed.
Lemma oks_alone s : oks (alone s) <-> string_ok s.
Proof. unfold alone. rewrite oks_cons, oks_nil. tauto. Qed.
(** splits hypotheses about lists of strings *)
Ltac oksplit := repeat (rewrite ?oks_app, ?oks_cons, ?oks_nil, ?oks_flat, ?oks_map, ?oks_named, ?oks_maybe, ?oks_alone in *).

(** maps *)
Lemma oks_named_snoc {A} (f : A -> list str) m k v : oks (named f m) -> string_ok k -> oks (f v) -> oks (named f (m ++ [(k, v)])).
Proof.
  rewrite !oks_named. intros H K L k' v' I. apply in_app_iff in I as [I|[[= <- <-]|[]]]; auto.
Qed.
Lemma in_lremove {A} k (m : smap A) x : In x (sremove k m) -> In x m.
Proof.
  unfold sremove. induction m as [|(k', v) r IH]; cbn [lremove]; [easy|]. destruct (str_eqb k k'); [now right; apply IH|].
  intros [<-|I]; [now left|right; auto].
Qed.
Lemma oks_remove {A} (f : A -> list str) m k : oks (named f m) -> oks (named f (sremove k m)).
Proof. rewrite !oks_named. intros H k' v I. apply in_lremove in I. auto. Qed.
Lemma oks_insert {A} (f : A -> list str) m k v : oks (named f m) -> string_ok k -> oks (f v) -> oks (named f (sinsert k v m)).
Proof. intros H K L. unfold sinsert, linsert. apply oks_named_snoc; auto. now apply oks_remove. Qed.
Lemma oks_collect {A} (f : A -> list str) l : oks (named f l) -> oks (named f (scollect l)).
Proof.
  unfold scollect, lcollect. assert (H : forall l m, oks (named f l) -> oks (named f m) ->
    oks (named f (fold_left (fun m kv => linsert str_eqb (fst kv) (snd kv) m) l m))).
  { clear l. induction l as [|[k v] r IH]; intros m H K; cbn [fold_left]; auto. unfold named in H. cbn [flat_map fst snd] in H.
    rewrite oks_app, oks_cons in H. apply IH; [tauto|]. now apply (oks_insert f m k v). }
  intros K. apply H; auto. constructor.
Qed.
Lemma sget_in_map {A} k (m : smap A) v : sget k m = Some v -> exists k', In (k', v) m.
Proof.
  unfold sget. induction m as [|(k', w) r IH]; cbn [lget]; [easy|]. destruct (str_eqb k k'); [intros [= <-]; exists k'; now left|].
  intros H. apply IH in H as (k2 & I). exists k2. now right.
Qed.
Lemma oks_get {A} (f : A -> list str) m k v : oks (named f m) -> sget k m = Some v -> oks (f v).
Proof. intros H K. apply sget_in_map in K as (k' & I). rewrite oks_named in H. now apply H in I. Qed.

(** ** Writing JSON *)
Definition num_texts (n : jnum) : list str := jint n :: maybe alone (jfrac n) ++ maybe (fun e => [snd e]) (jexp n).
Fixpoint json_texts (j : json) : list str :=
  match j with
  | JNum n => num_texts n
  | JStr s => maybe alone s
  | JArr l => flat_map json_texts l
  | JObj l => flat_map (fun kv => maybe alone (fst kv) ++ json_texts (snd kv)) l
  | _ => []
  end.
Definition jok (j : json) : Prop := oks (json_texts j).
Lemma ok_esc c : scal c -> string_ok (esc_char c).
Proof.
  intros H. unfold esc_char. assert (D : forall n, n < 16 -> scal (hexdig n)).
  { intros n L. apply small_scal. unfold hexdig. destruct (N.ltb_spec n 10); lia. }
  repeat (match goal with |- context [if ?b then _ else _] => destruct b eqn:? end; [repeat (apply ok_cons; split; [apply small_scal; reflexivity|]); try apply ok_nil|]).
  - apply N.ltb_lt in Heqb6. repeat (apply ok_cons; split; [try (apply small_scal; reflexivity)|]); try apply ok_nil; apply D.
    + apply N.div_lt_upper_bound; lia.
    + apply N.mod_lt. lia.
  - apply ok_cons. split; auto using ok_nil.
Qed.
Lemma ok_print_str s : string_ok s -> string_ok (print_str s).
Proof.
  intros H. unfold print_str. apply ok_cons. split; [apply small_scal; reflexivity|]. apply ok_app. split.
  - apply ok_concat. apply oks_map. intros c I. apply ok_esc. unfold string_ok in H. rewrite Forall_forall in H. exact (H c I).
  - apply ok_cons. split; [apply small_scal; reflexivity|constructor].
Qed.
Lemma ok_print_ostr s : oks (maybe alone s) -> string_ok (print_ostr s).
Proof. destruct s; cbn [maybe print_ostr]; [rewrite oks_alone; apply ok_print_str|intros _; apply ok_lit]. Qed.
Ltac ascii := apply small_scal; reflexivity.
Lemma ok_print_num n : oks (num_texts n) -> string_ok (print_num n).
Proof.
  unfold num_texts, print_num. rewrite oks_cons, oks_app. intros (H & K & L). rewrite !ok_app. repeat split; auto.
  - destruct (jneg n); [apply ok_cons; split; [ascii|]|]; apply ok_nil.
  - destruct (jfrac n); [|apply ok_nil]. cbn [maybe] in K. rewrite oks_alone in K. apply ok_cons. split; [ascii|auto].
  - destruct (jexp n) as [[b ds]|]; [|apply ok_nil]. cbn [maybe snd] in L. rewrite oks_cons in L. apply ok_cons. split; [ascii|].
    apply ok_app. split; [|tauto]. destruct b; [apply ok_cons; split; [ascii|]|]; apply ok_nil.
Qed.
Section JsonInd.
  Context (P : json -> Prop) (H0 : P JNull) (H1 : forall b, P (JBool b)) (H2 : forall n, P (JNum n)) (H3 : forall s, P (JStr s))
    (H4 : forall l, Forall P l -> P (JArr l)) (H5 : forall l, Forall (fun kv => P (snd kv)) l -> P (JObj l)).
  Fixpoint json_induct (j : json) : P j :=
    match j with
    | JNull => H0 | JBool b => H1 b | JNum n => H2 n | JStr s => H3 s
    | JArr l => H4 l ((fix go (l : list json) : Forall P l := match l with [] => Forall_nil _ | x :: r => Forall_cons _ (json_induct x) (go r) end) l)
    | JObj l => H5 l ((fix go (l : list (option str * json)) : Forall (fun kv => P (snd kv)) l :=
        match l with [] => Forall_nil _ | x :: r => Forall_cons x (json_induct (snd x)) (go r) end) l)
    end.
End JsonInd.
Lemma ok_print j : jok j -> string_ok (print_json j).
Proof.
  unfold jok. induction j as [|b|n|s|l IH|l IH] using json_induct; cbn [json_texts print_json]; intros H.
  - apply ok_lit.
  - destruct b; apply ok_lit.
  - now apply ok_print_num.
  - now apply ok_print_ostr.
  - apply ok_cons. split; [ascii|]. apply ok_app. split; [|apply ok_cons; split; [ascii|apply ok_nil]]. apply ok_join; [ascii|].
    apply oks_map. intros x I. rewrite Forall_forall in IH. rewrite oks_flat in H. auto.
  - apply ok_cons. split; [ascii|]. apply ok_app. split; [|apply ok_cons; split; [ascii|apply ok_nil]]. apply ok_join; [ascii|].
    apply oks_map. intros x I. rewrite Forall_forall in IH. rewrite oks_flat in H. apply H in I as K. rewrite oks_app in K. destruct K as [K L].
    apply ok_app. split; [now apply ok_print_ostr|]. apply ok_cons. split; [ascii|auto].
Qed.
Lemma jok_str s : string_ok s -> jok (e_str s).
Proof. intros H. now apply oks_alone. Qed.
Lemma jok_int z : jok (e_int z).
Proof. unfold jok, e_int, e_nat. destruct z; cbn [json_texts]; (constructor; [apply ok_dec|constructor]). Qed.
Lemma jok_u n : jok (e_u n).
Proof. apply jok_int. Qed.
Lemma jok_color c : jok (e_color c).
Proof. apply jok_int. Qed.
Lemma jok_obj l : Forall (fun kv => jok (snd kv)) l -> jok (e_obj l).
Proof.
  intros H. unfold jok, e_obj. cbn [json_texts]. rewrite oks_flat. intros x I. apply in_map_iff in I as (kv & <- & I). rewrite Forall_forall in H.
  cbn [fst snd maybe]. rewrite oks_app, oks_alone. split; [apply ok_lit|]. now apply H.
Qed.
Lemma jok_arr {A} (e : A -> json) l : (forall x, In x l -> jok (e x)) -> jok (JArr (map e l)).
Proof. intros H. unfold jok. cbn [json_texts]. rewrite oks_flat. intros x I. apply in_map_iff in I as (y & <- & I). now apply H. Qed.
Lemma ok_ryu neg D k : oks (num_texts (ryu_num neg D k)).
Proof.
  assert (F : forall n, string_ok (firstn n (dec_of_N D))) by (intros; eapply ok_incl; [apply incl_firstn|apply ok_dec]).
  assert (S : forall n, string_ok (skipn n (dec_of_N D))) by (intros; eapply ok_incl; [apply incl_skipn|apply ok_dec]).
  assert (R : forall n, string_ok (repeat CH_0 n)) by (intros; apply ok_repeat; ascii).
  assert (O : string_ok [CH_0]) by (apply ok_cons; split; [ascii|apply ok_nil]).
  unfold ryu_num. cbv zeta. repeat match goal with |- context [if ?b then _ else _] => destruct b end;
    unfold num_texts; cbn [jint jfrac jexp maybe alone app snd]; rewrite ?oks_cons, ?oks_app, ?oks_alone, ?oks_nil, ?ok_app; auto using ok_dec.
  all: repeat split; auto using ok_dec.
  all: specialize (S 1%nat); destruct (skipn 1 (dec_of_N D)) eqn:E; rewrite ?E in S; cbn [maybe]; rewrite ?oks_alone, ?oks_cons, ?oks_nil; auto using ok_dec.
Qed.
Lemma jok_f32 x : jok (e_f32 x).
Proof.
  assert (O : string_ok [CH_0]) by (apply ok_cons; split; [ascii|apply ok_nil]).
  unfold jok. destruct x as [| |s|s m e]; cbn [e_f32]; try (now constructor).
  - cbn. repeat constructor; auto; ascii.
  - cbv zeta. destruct (shortest _ _ _ _ _) as [D E]. destruct (D mod 10 =? 0); apply ok_ryu.
Qed.

(** ** Writing the data files *)
Ltac jfields := repeat match goal with
  | |- Forall _ [] => apply Forall_nil
  | |- Forall _ (_ :: _) => apply Forall_cons; [cbn [snd]|]
  end.
Ltac jfield := first [apply jok_int | apply jok_u | apply jok_color | apply jok_f32 | apply jok_str; auto using ok_dec, ok_lit].
Ltac ok_pieces := repeat match goal with
  | |- string_ok (_ ++ _) => apply ok_app; split
  | |- string_ok (lit _) => apply ok_lit
  | |- string_ok (dec_of_N _) => apply ok_dec
  | |- string_ok [] => apply ok_nil
  | |- string_ok (_ :: _) => apply ok_cons; split; [ascii|]
  end.
Lemma ok_file f : oks (file_texts f) -> string_ok (file_reconstruct f).
Proof.
  unfold file_texts. rewrite map_app, oks_app, !oks_map. intros [H K].
  assert (W : forall l, (forall x, In x l -> string_ok (fi_filename x)) -> string_ok (file_items_text l)).
  { intros l L. unfold file_items_text. apply ok_trim. apply ok_fold; [|apply ok_nil]. intros acc x I A. ok_pieces; auto.
    unfold file_item_reconstruct, to_string. apply ok_print. unfold e_file_item. apply jok_obj. jfields; jfield. }
  unfold file_reconstruct. ok_pieces; auto.
Qed.
Lemma ok_library_item x : oks (library_item_texts x) -> string_ok (library_item_reconstruct x).
Proof.
  unfold library_item_texts. oksplit. intros (H1 & (H2 & H3 & H4 & H5 & _) & H6 & H7 & _). unfold library_item_reconstruct, to_string. apply ok_print.
  unfold e_library_item. apply jok_obj. jfields; try jfield.
  - apply jok_arr. intros u I. apply H1 in I. unfold ad_unit_texts in I. oksplit. unfold e_ad_unit. apply jok_obj. jfields; apply jok_str; tauto.
  - apply jok_arr. intros u I. unfold oks in H6. rewrite Forall_forall in H6. apply jok_str. auto.
Qed.
Lemma ok_library l : oks (library_texts l) -> string_ok (library_reconstruct l).
Proof.
  unfold library_texts. cbn [flat_map]. oksplit. intros (H1 & H2 & H3 & H4 & _). unfold library_reconstruct.
  assert (L : forall s, string_ok (lib_header s)) by (intros []; apply ok_lit).
  ok_pieces; auto using ok_library_item.
Qed.
Lemma ok_resource r : oks (resource_texts r) -> string_ok (resource_reconstruct r).
Proof.
  unfold resource_texts. rewrite !flat_map_app. rewrite !oks_app. intros (H1 & H2 & H3).
  assert (W : forall l, oks (flat_map resource_item_texts l) -> string_ok (resource_items_text l)).
  { intros l L. unfold resource_items_text. rewrite oks_flat in L. apply ok_fold; [|apply ok_nil]. intros acc x I A. ok_pieces; auto.
    apply L in I. unfold resource_item_texts in I. oksplit. unfold resource_item_reconstruct, to_string. apply ok_print. unfold e_resource_item. apply jok_obj.
    jfields; jfield; tauto. }
  unfold resource_reconstruct. ok_pieces; auto using ok_trim.
Qed.
Lemma ok_project p s : oks (project_texts p) -> project_reconstruct p = Ok s -> string_ok s.
Proof.
  unfold project_texts, project_reconstruct, date_ser. oksplit. intros (H1 & H2 & H3 & H4 & _).
  destruct (datetime_of_timestamp _) as [dt|]; cbn [bind]; [|discriminate]. intros E.
  assert (E' : print_json (e_project p (date_text dt)) = s) by congruence. rewrite <- E'. clear E E'. apply ok_print. unfold e_project. apply jok_obj.
  jfields; try jfield; try assumption.
  - unfold date_text. rewrite !ok_app. repeat split; apply ok_decZ.
  - constructor.
Qed.
Lemma jok_skip s o : oks (maybe alone o) -> Forall (fun kv => jok (snd kv)) (e_skip s e_str o).
Proof. destruct o; cbn; [rewrite oks_alone|]; intros H; repeat constructor. cbn. auto. Qed.
Lemma ok_view_line v : oks (raw_view_texts v) -> string_ok (view_line_reconstruct v).
Proof.
  unfold raw_view_texts. rewrite !oks_app, !oks_cons. intros ((H1 & H2 & H3 & H4 & H5 & H6 & H7 & H8 & _) & H9 & H10 & H11 & H12).
  unfold view_line_reconstruct, to_string. apply ok_print. unfold e_view. apply jok_obj. unfold android_view_fields.
  rewrite !Forall_app. repeat match goal with |- _ /\ _ => split end; try (apply jok_skip; assumption); jfields; try jfield.
  - unfold e_image. apply jok_obj. unfold image_config_fields. apply Forall_app. split; [now apply jok_skip|]. jfields; [apply jok_int|].
    apply jok_str. destruct (ic_scale_type _); apply ok_lit.
  - destruct (av_indeterminate v); apply ok_lit.
  - unfold e_layout. apply jok_obj. unfold layout_config_fields. jfields; jfield.
  - unfold e_text. apply jok_obj. unfold text_config_fields. jfields; try jfield.
Qed.
Lemma ok_layout l : oks (flat_map raw_view_texts l) -> string_ok (layout_reconstruct l).
Proof.
  rewrite oks_flat. intros H. unfold layout_reconstruct. apply ok_trim. apply ok_fold; [|apply ok_nil]. intros acc x I A. ok_pieces; auto using ok_view_line.
Qed.
Lemma ok_view v : oks (view_texts v) -> string_ok (view_reconstruct v).
Proof.
  unfold view_texts. rewrite oks_app, !oks_named. intros [H K]. unfold view_reconstruct. apply ok_trim_end. ok_pieces.
  - apply ok_concat. apply oks_map. intros [k l] I. apply H in I. cbn [fst snd]. ok_pieces; try tauto. apply ok_layout. tauto.
  - apply ok_concat. apply oks_map. intros [k l] I. apply K in I. cbn [fst snd]. ok_pieces; try tauto. apply ok_view_line. tauto.
Qed.
Lemma ok_lines {A} (f : A -> str) l : (forall x, In x l -> string_ok (f x)) -> string_ok (trim (fold_left (fun acc i => acc ++ [NL] ++ f i) l [])).
Proof. intros H. apply ok_trim. apply ok_fold; [|apply ok_nil]. intros acc x I K. ok_pieces; auto. Qed.
Lemma in_values {A} (f : A -> list str) (m : smap A) : oks (named f m) -> forall x, In x (map snd m) -> oks (f x).
Proof. rewrite oks_named. intros H x I. apply in_map_iff in I as ((k, v) & <- & I). now apply H in I. Qed.
Lemma ok_block b : oks (raw_block_texts b) -> string_ok (block_reconstruct b).
Proof.
  unfold raw_block_texts. rewrite oks_app, !oks_cons. intros ((H1 & H2 & H3 & H4 & H5 & _) & H6). unfold block_reconstruct, to_string. apply ok_print.
  unfold e_block. apply jok_obj. unfold block_fields. jfields; try jfield. apply jok_arr. intros x I. apply jok_str. unfold oks in H6. rewrite Forall_forall in H6. auto.
Qed.
Lemma ok_containers s : oks (screen_logic_texts s) -> string_ok (sec_containers s).
Proof.
  unfold screen_logic_texts. rewrite oks_cons, oks_app. intros (N0 & H & _). rewrite oks_named in H. unfold sec_containers. apply ok_fold; [|apply ok_nil].
  intros acc [k c] I A. apply H in I as (K & C). unfold container_text. cbn [fst snd]. ok_pieces; auto. unfold block_container_reconstruct.
  rewrite oks_flat in C. apply ok_fold; [|apply ok_nil]. intros acc' x I A'. ok_pieces; auto using ok_block.
Qed.
Lemma ok_section {A} (o : option A) (f : A -> str) s : (forall a, o = Some a -> string_ok (f a)) -> In s (osection o f) -> string_ok s.
Proof. destruct o; cbn [osection]; [|easy]. intros H [<-|[]]. auto. Qed.
Lemma ok_logic l : oks (logic_texts l) -> string_ok (logic_reconstruct l).
Proof.
  unfold logic_texts. intros H. pose proof (in_values _ _ H) as V. clear H. unfold logic_reconstruct. apply ok_trim. apply ok_fold; [|apply ok_nil].
  intros acc s I A. ok_pieces; auto. apply ok_trim. unfold logic_sections in I. cbv zeta in I. rewrite !in_app_iff, !in_flat_map in I.
  destruct I as [(x & I & S)|[(x & I & S)|[(x & I & S)|[(x & I & S)|[(x & I & S)|I]]]]].
  6: { apply in_map_iff in I as (x & <- & I). apply ok_containers. auto. }
  all: apply V in I; clear V; unfold screen_logic_texts in I; rewrite oks_cons, !oks_app, !oks_maybe in I; destruct I as (N0 & _ & I1 & I2 & I3 & I4 & I5);
    eapply ok_section; [|exact S]; clear S; cbn beta; intros p E.
  - apply I1 in E. ok_pieces; auto. apply ok_lines. intros v I. pose proof (in_values _ _ E v I) as K. unfold variable_texts in K. rewrite oks_cons in K.
    unfold variable_reconstruct. ok_pieces; tauto.
  - apply I2 in E. ok_pieces; auto. apply ok_lines. intros v I. pose proof (in_values _ _ E v I) as K. unfold list_variable_texts in K. rewrite oks_cons in K.
    unfold list_variable_reconstruct. ok_pieces; tauto.
  - apply I3 in E. rewrite oks_flat in E. ok_pieces; auto. apply ok_trim_end. apply ok_fold; [|apply ok_nil]. intros acc' x' I K. ok_pieces; auto.
    apply E in I. unfold component_texts in I. oksplit. unfold component_reconstruct, to_string. apply ok_print. unfold e_component. apply jok_obj. unfold component_fields.
    jfields; try jfield; tauto.
  - apply I4 in E. rewrite oks_flat in E. ok_pieces; auto. apply ok_lines. intros x' I. apply E in I. unfold event_texts in I. oksplit.
    unfold event_reconstruct, to_string. apply ok_print. unfold e_event. apply jok_obj. unfold event_fields. jfields; try jfield; tauto.
  - apply I5 in E. ok_pieces; auto. apply ok_lines. intros v I. pose proof (in_values _ _ E v I) as K. unfold more_block_texts in K. rewrite !oks_cons in K.
    unfold more_block_reconstruct. ok_pieces; tauto.
Qed.
Lemma oks_values {A} (f : A -> list str) (m : smap A) l : oks (named f m) -> Permutation.Permutation l (map snd m) -> oks (flat_map f l).
Proof. intros H P. rewrite oks_flat. intros x I. apply (in_values _ _ H). eapply Permutation.Permutation_in; eauto. Qed.
Lemma ok_into_raw q r : oks (parsed_texts q) -> into_raw q r -> oks (raw_texts r).
Proof.
  unfold parsed_texts. rewrite !oks_app. intros (H1 & H2 & H3 & H4 & H5 & H6 & H7) (D & R). unfold data_files in D.
  destruct (project_reconstruct (pp_project q)) as [t| |] eqn:E; cbn [bind] in D; try discriminate D. injection D as E1 E2 E3 E4 E5 E6.
  unfold raw_texts. rewrite oks_app, !oks_cons, oks_nil. rewrite <- E1, <- E2, <- E3, <- E4, <- E5, <- E6. repeat split; eauto using ok_project, ok_file, ok_library, ok_resource, ok_view, ok_logic.
  destruct (pp_resource_files q) as [f|]; [|now rewrite R; constructor]. destruct R as (ws & -> & im & so & fo & P1 & P2 & P3 & ->). cbn [maybe] in *.
  unfold res_files_texts in H7. rewrite !oks_app in H7. destruct H7 as (K0 & K1 & K2 & K3). rewrite !flat_map_app, !oks_app.
  repeat split; eauto using oks_values. destruct (rf_custom_icon f); cbn [flat_map maybe] in *; rewrite ?app_nil_r; auto.
Qed.
