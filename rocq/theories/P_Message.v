(** Properties C80 and C81: what the errors say. The specifications are in SpecMessage.v. *)
From Verif Require Import Base Str Crypto Utf8 Utf8Proofs RawProofs Spec SpecLines SpecReading SpecNumber SpecTools SpecMessage Dec Json M_Raw M_File M_Resource M_Library M_View
  M_Logic M_Project M_Parsed M_Message ResFilesProofs ReadingProofs LogicReadingProofs RecordProofs ToolProofs P_Reading P_Loading.

Lemma counted_dec b n a : counted b n a (b ++ dec_of_N n ++ a).
Proof. exists (dec_of_N n). split; [apply dec_numeral|reflexivity]. Qed.
Lemma counted_end b n : counted b n [] (b ++ dec_of_N n).
Proof. exists (dec_of_N n). split; [apply dec_numeral|now rewrite app_nil_r]. Qed.

(** C80 *)
Theorem C80_file s e : file_parse s = Err e -> file_said (split_on NL s) (file_message e).
Proof.
  destruct e as [n l]. intros H. apply C57_file_error in H as (i & h & -> & B). exists i, h, l. split; [exact B|apply counted_dec].
Qed.
Print Assumptions C80_file.
Theorem C80_resource s e : resource_parse s = Err e -> resource_said (split_on NL s) (resource_message e).
Proof.
  destruct e as [sec n]. intros H. apply C58_resource_error in H as (i & h & l & -> & -> & B). exists i, h, l.
  assert (I : In h res_headers) by (destruct B as (((_ & _ & (j & _ & _ & I & _)) & _) & _); exact I).
  exists (section_debug (rsec (Some h))). split; [exact B|]. split.
  - destruct I as [<-|[<-|[<-|[]]]]; cbn [In]; auto.
  - cbn [resource_message]. rewrite !app_assoc. apply counted_end.
Qed.
Print Assumptions C80_resource.
Theorem C80_library s e : library_parse s = Err e -> library_said (split_on NL s) (library_message e).
Proof.
  intros H. apply C59_library_error in H as (ps & rest & P & O & [(h & -> & -> & I)|[(h & i & r & -> & -> & I & B)|(pre & h & post & -> & -> & E & N & C)]]).
  - now apply says_eof with ps h.
  - apply says_item with ps h i r; auto. cbn [library_message]. rewrite !app_assoc. apply counted_end.
  - now apply says_missing with ps pre h post.
Qed.
Print Assumptions C80_library.
Theorem C80_view s e : view_parse s = Err e -> view_file_said (split_on NL s) (view_chain e).
Proof.
  intros H. apply C60_view_error in H as (es & rest & ls & fs & V & _ & _ & [(t & r & -> & N & ->)|[(name & body & bad & r & xs & -> & N & NB & F & NE & B & ->)|[(name & bad & r & -> & N & B & ->)|(name & -> & N & ->)]]]);
    (eexists es, _; split; [exact V|]).
  - apply says_header; [assumption|apply counted_dec].
  - cbn [view_chain view_message layout_parse_message lpe_line]. apply says_layout; auto; [|apply counted_dec].
    clear - F. induction F as [|l x ls xs E F IH]; constructor; [congruence|assumption].
  - now apply says_fab.
  - cbn [view_chain view_message]. apply says_fab_eof; [assumption|]. rewrite <- N.add_assoc. change (1 + 1) with 2.
    eexists. split; [apply dec_numeral|]. now rewrite app_nil_r, <- !app_assoc.
Qed.
Print Assumptions C80_view.

Lemma colon_first l : match split_once (lit ":") l with Some (t, r) => l = t ++ 58 :: r /\ ~ In 58 t | None => ~ In 58 l end.
Proof.
  destruct (in_dec N.eq_dec 58 l) as [I|I].
  - assert (X : exists t r, l = t ++ 58 :: r /\ ~ In 58 t).
    { clear - I. induction l as [|c l IH]; [contradiction|]. destruct (N.eq_dec c 58) as [->|N]; [exists [], l; auto|].
      destruct I as [->|I]; [contradiction|]. destruct (IH I) as (t & r & -> & T). exists (c :: t), r. split; [reflexivity|]. intros [->|H]; auto. }
    destruct X as (t & r & -> & T). change (lit ":") with [58]. now rewrite split_once_char.
  - change (lit ":") with [58]. now rewrite split_once_char_none.
Qed.
Lemma small_iff t n : parse_u8 t = Some n <-> small_number t n.
Proof.
  unfold parse_u8. rewrite parse_uint_spec. unfold small_number, U8MAX.
  split; intros (sign & ds & -> & I & D & V & L); exists sign, ds; repeat split; try assumption; try apply D; lia.
Qed.
Lemma type_none n : variable_type_of n = None -> 4 <= n.
Proof.
  unfold variable_type_of. destruct (N.eqb_spec n 0), (N.eqb_spec n 1), (N.eqb_spec n 2), (N.eqb_spec n 3); try discriminate. lia.
Qed.
Lemma variable_says l e : variable_parse l = Err e -> variable_said l (variable_chain e).
Proof.
  unfold variable_parse. pose proof (colon_first l) as C. destruct (split_once (lit ":") l) as [[t r]|]; cbn [ok_or bind].
  - destruct C as [E T]. destruct (parse_u8 t) as [n|] eqn:P; cbn [ok_or bind].
    + apply small_iff in P. destruct (variable_type_of n) eqn:Y; [discriminate|]. cbn [ok_or bind]. intros [= <-].
      apply type_none in Y. eapply says_no_type; eauto; apply counted_dec.
    + intros [= <-]. eapply says_no_number; eauto. intros n H. apply small_iff in H. congruence.
  - intros [= <-]. now apply says_no_colon.
Qed.
Lemma list_variable_says l e : list_variable_parse l = Err e -> list_variable_said l (list_variable_chain e).
Proof.
  unfold list_variable_parse. pose proof (colon_first l) as C. destruct (split_once (lit ":") l) as [[t r]|]; cbn [ok_or bind].
  - destruct C as [E T]. destruct (parse_u8 t) as [n|] eqn:P; cbn [ok_or bind].
    + apply small_iff in P. destruct (variable_type_of n) eqn:Y; [discriminate|]. cbn [ok_or bind]. intros [= <-].
      apply type_none in Y. eapply says_list_no_type; eauto; apply counted_dec.
    + intros [= <-]. eapply says_list_no_number; eauto. intros n H. apply small_iff in H. congruence.
  - intros [= <-]. now apply says_list_no_colon.
Qed.
Theorem C80_logic mv s e : logic_parse mv s = Err e -> logic_file_said (split_on NL s) (logic_chain e).
Proof.
  intros H. apply (C61_logic_stop mv s (Some e)) in H as (secs & rest & S & O & T). exists secs, rest. split; [exact S|]. split; [exact O|].
  inversion T as [t r C P| |h nm k body bad r x HN NB F NE L]; subst.
  - cbn [logic_chain logic_message header_chain]. apply says_container_header; auto.
    eexists. split; [apply dec_numeral|]. unfold logic_message. now rewrite app_nil_r.
  - inversion L as [x B|x B|x B|x B|x B|c x B]; subst; cbn [logic_chain pool_err]; eapply says_line; eauto;
      try (unfold logic_message, place; eexists; split; [apply dec_numeral|]; now rewrite app_nil_r, <- ?app_assoc).
    + apply says_variable; [apply counted_end|now apply variable_says].
    + apply says_list; [apply counted_end|now apply list_variable_says].
    + destruct x. apply says_component; [apply counted_dec|assumption].
    + destruct x. apply says_event; [apply counted_dec|assumption].
    + destruct x as [content]. unfold more_block_parse in B. pose proof (colon_first bad) as C.
      destruct (split_once (lit ":") bad) as [[? ?]|]; [discriminate|]. injection B as <-. cbn [more_block_chain pe_source].
      apply says_more_block; [apply counted_end|assumption].
    + destruct x. now apply says_block.
Qed.
Print Assumptions C80_logic.
Lemma rf_step_err ex r w e : rf_step ex r w = Err e -> exists p, w = WPath p /\
  ((ex p = false /\ e = FileDoesntExist p) \/ (ex p = true /\ e = InvalidPath p)).
Proof.
  destruct w as [p| |]; cbn [rf_step]; try discriminate. intros H. exists p. split; [reflexivity|]. destruct (ex p); cbn [negb] in H; [right|left; split; congruence].
  split; [reflexivity|].
  destruct (parent_of (components p)) as [p1|]; cbn [ok_or bind] in H; [|congruence].
  destruct (parent_of p1) as [p2|]; cbn [ok_or bind] in H; [|congruence].
  destruct (file_name_of p2) as [fo|]; cbn [ok_or bind] in H; [|congruence].
  destruct (file_name_of (components p)) as [na|]; cbn [ok_or bind] in H; [|congruence].
  destruct (type_of_folder fo); cbn [ok_or bind] in H; congruence.
Qed.
Theorem C80_res_files dbg ex ws e : res_files_try_from ex ws = Err e -> files_said dbg ex ws (res_files_message dbg e).
Proof.
  unfold res_files_try_from. generalize res_files_default. induction ws as [|w ws IH]; intros r; cbn [rf_collect]; [discriminate|].
  destruct (rf_step ex r w) as [r1|x|] eqn:S; cbn [bind]; [| |discriminate].
  - intros H. apply IH in H as (b & p & a & -> & F & C). exists (w :: b), p, a. split; [reflexivity|]. split; [|exact C].
    constructor; [|exact F]. apply rf_step_ok in S as (t & n & W & _). eauto.
  - intros [= <-]. destruct (rf_step_err _ _ _ _ S) as (p & -> & C). exists [], p, ws. split; [reflexivity|]. split; [constructor|].
    destruct C as [[X ->]|[X ->]]; [left; auto|right]. split; [exact X|]. split; [|reflexivity].
    intros (t & n & W). assert (rf_step ex r (WPath p) = Ok (rf_put t n (WPath p) r)) by (apply rf_step_ok; eauto). congruence.
Qed.
Print Assumptions C80_res_files.
Theorem C80_project dbg mv ex w e : parse_from mv ex w = Err e -> project_said dbg ex mv w (parse_chain dbg e).
Proof.
  intros H. apply C65_error in H. assert (NO : forall E A (r : res E A) x, r = Err x -> ~ exists a, r = Ok a) by (intros ? ? ? ? -> [? ?]; discriminate).
  unfold project_said, data_files, fine in *. destruct e as [x|x|x|x|x|x|x]; cbn [parse_chain].
  - left. eexists [], _, _, []. split; [reflexivity|]. split; [constructor|]. cbn. eauto.
  - destruct H as (H & H1). left. eexists [_], _, _, _. split; [reflexivity|]. split; [repeat constructor; assumption|]. cbn [df_reads df_said df_name].
    split; [eauto|]. split; [exists (file_message x); split; [reflexivity|exact (C80_file _ _ H)]|reflexivity].
  - destruct H as (H & H1 & H2). left. eexists [_; _], _, _, _. split; [reflexivity|]. split; [repeat constructor; assumption|]. cbn [df_reads df_said df_name].
    split; [eauto|]. split; [exists (library_message x); split; [reflexivity|exact (C80_library _ _ H)]|reflexivity].
  - destruct H as (H & H1 & H2 & H3). left. eexists [_; _; _], _, _, _. split; [reflexivity|]. split; [repeat constructor; assumption|]. cbn [df_reads df_said df_name].
    split; [eauto|]. split; [exists (resource_message x); split; [reflexivity|exact (C80_resource _ _ H)]|reflexivity].
  - destruct H as (H & H1 & H2 & H3 & H4). left. eexists [_; _; _; _], _, _, _. split; [reflexivity|]. split; [repeat constructor; assumption|]. cbn [df_reads df_said df_name].
    split; [eauto|]. split; [exact (C80_view _ _ H)|reflexivity].
  - destruct H as (H & H1 & H2 & H3 & H4 & H5). left. eexists [_; _; _; _; _], _, _, _. split; [reflexivity|]. split; [repeat constructor; assumption|]. cbn [df_reads df_said df_name].
    split; [eauto|]. split; [exact (C80_logic _ _ _ H)|reflexivity].
  - destruct H as ((ws & W & H) & H1 & H2 & H3 & H4 & H5 & H6). right. split; [repeat constructor; assumption|].
    exists ws, (res_files_message dbg x). split; [exact W|]. split; [now apply C80_res_files|reflexivity].
Qed.
Print Assumptions C80_project.
Lemma decrypt_text_said data e : decrypt_text data = Err e -> data_said data (crypto_message e).
Proof.
  unfold decrypt_text. destruct (decrypt_sw_encrypted data) as [plain|x|] eqn:D; cbn [bind]; [| |discriminate].
  - destruct (utf8_decode plain) as [t|] eqn:U; [discriminate|]. intros [= <-]. apply (says_not_text _ plain D). intros t T X. apply string_ok_wf in T.
    rewrite <- X, utf8_decode_encode in U by exact T. discriminate.
  - intros [= <-]. unfold decrypt_sw_encrypted in D. assert (x = DecryptionError) as -> by (destruct (negb _); [congruence|]; destruct (pkcs7_unpad _); congruence).
    apply says_undecryptable. intros plain. unfold decrypt_sw_encrypted. rewrite D. discriminate.
Qed.
Lemma decrypt_text_fine data t : decrypt_text data = Ok t -> is_text data.
Proof. intros H. exists t. now apply decrypt_text_ok. Qed.
Lemma from_encrypted_said rf p f l r v g e : from_encrypted_with rf p f l r v g = Err e -> encrypted_said [p; f; l; r; v; g] (crypto_message e).
Proof.
  unfold from_encrypted_with, encrypted_said.
  destruct (decrypt_text p) as [tp|x|] eqn:P; cbn [bind]; [|intros [= <-]; exists [], p; eexists; split; [reflexivity|]; split; [constructor|now apply decrypt_text_said]|discriminate].
  destruct (decrypt_text f) as [tf|x|] eqn:F; cbn [bind]; [|intros [= <-]; exists [p], f; eexists; split; [reflexivity|]; split; [repeat constructor; eapply decrypt_text_fine; eassumption|now apply decrypt_text_said]|discriminate].
  destruct (decrypt_text l) as [tl|x|] eqn:L; cbn [bind]; [|intros [= <-]; exists [p; f], l; eexists; split; [reflexivity|]; split; [repeat constructor; eapply decrypt_text_fine; eassumption|now apply decrypt_text_said]|discriminate].
  destruct (decrypt_text r) as [tr|x|] eqn:R; cbn [bind]; [|intros [= <-]; exists [p; f; l], r; eexists; split; [reflexivity|]; split; [repeat constructor; eapply decrypt_text_fine; eassumption|now apply decrypt_text_said]|discriminate].
  destruct (decrypt_text v) as [tv|x|] eqn:V; cbn [bind]; [|intros [= <-]; exists [p; f; l; r], v; eexists; split; [reflexivity|]; split; [repeat constructor; eapply decrypt_text_fine; eassumption|now apply decrypt_text_said]|discriminate].
  destruct (decrypt_text g) as [tg|x|] eqn:G; cbn [bind]; [discriminate|intros [= <-]; exists [p; f; l; r; v], g; eexists; split; [reflexivity|]; split; [repeat constructor; eapply decrypt_text_fine; eassumption|now apply decrypt_text_said]|discriminate].
Qed.
Theorem C80_encrypted p f l r v g rf e :
  (from_encrypted p f l r v g rf = Err e -> encrypted_said [p; f; l; r; v; g] (crypto_message e)) /\
  (from_encrypted_wo_res p f l r v g = Err e -> encrypted_said [p; f; l; r; v; g] (crypto_message e)).
Proof. split; apply from_encrypted_said. Qed.
Print Assumptions C80_encrypted.
(** the files themselves: a missing file is an io error, whatever is to be done with it *)
Theorem C80_crypto fs file out e :
  (decrypt_sw_file fs file = Err e <->
     fs file = None /\ e = IOError \/ exists data, fs file = Some data /\ decrypt_sw_encrypted data = Err e) /\
  (forall data, decrypt_sw_encrypted data = Err e -> crypto_message e = lit "decryption error") /\
  (encrypt_sw_file fs file = Err e \/ fst (encrypt_sw_file_to_file fs file out) = Err e -> fs file = None /\ crypto_message e = lit "io error") /\
  crypto_message IOError = lit "io error".
Proof.
  unfold decrypt_sw_file, encrypt_sw_file, encrypt_sw_file_to_file, fs_read. split; [split|split; [|split; [|reflexivity]]].
  - destruct (fs file) as [d|]; cbn [ok_or bind]; [intros H; right; eauto|intros [= <-]; auto].
  - intros [[-> ->]|(d & -> & H)]; [reflexivity|exact H].
  - intros d. unfold decrypt_sw_encrypted. destruct (negb _); [now intros [= <-]|]. destruct (pkcs7_unpad _); [discriminate|now intros [= <-]].
  - destruct (fs file) as [d|]; cbn; [intros [?|?]; discriminate|]. now intros [[= <-]|[= <-]].
Qed.
Print Assumptions C80_crypto.
Definition chain_of {E A} (ms : E -> list str) (r : res E A) : option (list str) := match r with Err e => Some (ms e) | _ => None end.
Example C80_example :
  chain_of logic_chain (logic_parse true (join_lines (map lit ["@A.java_var"; "0:x"; ""; "@B.java_list"; "1:z"; "9:oops"]%string))) =
    Some (map lit ["error while parsing list variable pool of screen B at line 1"; "error while parsing list variable at count 1";
                   "variable type 9 is not a valid type"; "the value given (9) is not mapped to any variable type"]%string) /\
  chain_of view_chain (view_parse (join_lines [lit "@a.xml"; []; lit "@nodot"])) =
    Some [lit "invalid view header at line 3, couldn't separate screen name and container name"] /\
  chain_of view_chain (view_parse (join_lines [lit "@a.xml"; []] ++ lit "@b.xml_fab")) = Some [lit "EOF after the fab header of screen b at line 4"] /\
  chain_of (fun e => [library_message e]) (library_parse (lit "@admob")) = Some [lit "end of file after the header @admob"] /\
  chain_of (fun e => [file_message e]) (file_parse (join_lines (map lit ["@activity"; "x"]%string))) =
    Some [lit "failed to parse a file item at line 1 with the content x"].
Proof. vm_compute. repeat split. Qed.
Example C80_encrypted_example :
  let e s := encrypt_sw (utf8_encode s) in
  (match from_encrypted_wo_res (e (lit "p")) (e (lit "f")) (encrypt_sw [255%N]) (e (lit "r")) [1%N] (e (lit "g")) with Err x => Some (crypto_message x) | _ => None end) =
    Some (lit "couldn't convert binaries into utf8") /\
  (match from_encrypted_wo_res (e (lit "p")) [1%N] (encrypt_sw [255%N]) (e (lit "r")) (e (lit "v")) (e (lit "g")) with Err x => Some (crypto_message x) | _ => None end) =
    Some (lit "decryption error").
Proof. vm_compute. split; reflexivity. Qed.
