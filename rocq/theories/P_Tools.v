(** The example programs: C77 (encrypt, decrypt), C78 (listings of data files), C79 (listing of a project). *)
From Verif Require Import Base Spec Str Utf8 Utf8Proofs Crypto CryptoProofs RawProofs P_Crypto SpecJson SpecNumber SpecTools SpecView ToolProofs.
From Verif Require Import M_Color M_Raw M_Project M_File M_Library M_Resource M_View M_Logic M_Parsed A_Block A_Screen A_Project E_Examples P_Files P_View P_Logic P_Project P_Parsed P_Loading P_ApiProject.

(** ** C77 *)
(** the output file decrypts to the input; nothing else is written *)
Theorem C77_encrypt args input output f d : encrypt_args args input output -> f input = Some d -> bytes d ->
  let r := encrypt_main args f in
  r_code r = 0 /\ r_out r = text_of_lines [lit "Saving as " ++ output; lit "Successfully encrypted " ++ input] /\
  decrypt_sw_file (r_files r) output = Ok d /\ (forall q, q <> output -> r_files r q = f q).
Proof.
  intros A F B. cbv zeta.
  assert (E : encrypt_main args f = exits 0 (println (lit "Saving as " ++ output) ++ println (lit "Successfully encrypted " ++ input)) (fs_set f output (encrypt_sw d))).
  { destruct A; unfold encrypt_main, encrypt_sw_file_to_file, fs_read; cbn [length Nat.eqb negb andb nth_error]; rewrite F; reflexivity. }
  rewrite E. cbn [r_code r_out r_files exits]. split; [reflexivity|]. split; [unfold text_of_lines; cbn [map concat]; now rewrite app_nil_r|].
  split.
  - unfold decrypt_sw_file, fs_read, fs_set. rewrite str_eqb_refl. cbn [ok_or bind]. now apply C01_decrypt_encrypt.
  - intros q Q. unfold fs_set. assert (X : str_eqb output q = false) by (apply str_eqb_neq; congruence). now rewrite X.
Qed.
Print Assumptions C77_encrypt.
(** without a source file: an exit code for failure and no change *)
Theorem C77_missing args input output f : encrypt_args args input output -> f input = None ->
  encrypt_main args f = exits 1 (text_of_lines [lit "Saving as " ++ output]) f.
Proof.
  intros A F. destruct A; unfold encrypt_main, encrypt_sw_file_to_file, fs_read; cbn [length Nat.eqb negb andb nth_error]; rewrite F;
    unfold text_of_lines; cbn [map concat]; rewrite app_nil_r; reflexivity.
Qed.
Print Assumptions C77_missing.
(** any other number of arguments: nothing is printed on standard output, nothing is changed *)
Theorem C77_usage dbg args f :
  ((forall input output, ~ encrypt_args args input output) -> args <> [] -> encrypt_main args f = exits 1 [] f) /\
  ((forall prog path, args <> [prog; path]) -> args <> [] -> decrypt_main dbg args f = exits 1 [] f).
Proof.
  destruct args as [|p [|a [|b [|c r]]]]; split; intros H N; try reflexivity; try congruence; exfalso.
  - exact (H _ _ (ea_default p a)).
  - exact (H _ _ (ea_given p a b)).
Qed.
Print Assumptions C77_usage.
(** [decrypt] prints the text of a file that decrypts to one, and nothing else is a success; it changes nothing *)
Theorem C77_decrypt dbg args f :
  r_files (decrypt_main dbg args f) = f /\
  (forall prog path d t, args = [prog; path] -> f path = Some d -> decrypt_sw_encrypted d = Ok (utf8_encode t) -> string_ok t ->
     decrypt_main dbg args f = exits 0 (text_of_lines [t]) f) /\
  (r_code (decrypt_main dbg args f) = 0 -> exists prog path d t, args = [prog; path] /\ f path = Some d /\
     decrypt_sw_encrypted d = Ok (utf8_encode t) /\ string_ok t).
Proof.
  split; [|split].
  - unfold decrypt_main. destruct (negb _); [destruct (nth_error args 0); reflexivity|]. destruct (nth_error args 1); [|reflexivity].
    destruct (decrypt_sw_file f l) as [d| |]; try reflexivity. destruct (utf8_decode d); reflexivity.
  - intros prog path d t -> F D T. unfold decrypt_main, decrypt_sw_file, fs_read. cbn [length Nat.eqb negb nth_error]. rewrite F. cbn [ok_or bind]. rewrite D.
    rewrite utf8_decode_encode by now apply string_ok_wf. unfold text_of_lines. cbn [map concat]. now rewrite app_nil_r.
  - unfold decrypt_main. destruct args as [|prog [|path [|x r]]]; cbn [length Nat.eqb negb nth_error]; try discriminate.
    unfold decrypt_sw_file, fs_read. destruct (f path) as [d|] eqn:F; [|discriminate]. cbn [ok_or bind].
    destruct (decrypt_sw_encrypted d) as [p|e|] eqn:D; try discriminate. destruct (utf8_decode p) as [t|] eqn:U; [|discriminate].
    intros _. apply utf8_decode_sound in U as [W <-]. exists prog, path, d, t. split; [reflexivity|]. split; [exact F|]. split; [exact D|]. now apply string_ok_wf.
Qed.
Print Assumptions C77_decrypt.
Lemma utf8_bytes t : string_ok t -> bytes (utf8_encode t).
Proof. intros H. apply bytes_bytes_ok. now apply utf8_encode_bytes, string_ok_wf. Qed.
(** a text file that is encrypted and decrypted again is printed as it was *)
Theorem C77_there_and_back dbg prog args input output f t : encrypt_args args input output -> f input = Some (utf8_encode t) -> string_ok t ->
  decrypt_main dbg [prog; output] (r_files (encrypt_main args f)) = exits 0 (text_of_lines [t]) (r_files (encrypt_main args f)).
Proof.
  intros A F T. destruct (C77_encrypt args input output f _ A F (utf8_bytes t T)) as (_ & _ & D & _).
  set (g := r_files (encrypt_main args f)) in *. unfold decrypt_sw_file, fs_read in D. destruct (g output) as [e|] eqn:G; [|discriminate].
  apply (proj1 (proj2 (C77_decrypt dbg [prog; output] g)) prog output e t eq_refl G); [exact D|exact T].
Qed.
Print Assumptions C77_there_and_back.
(** without a name for the output, the source file is safe whenever the program is killed *)
Theorem C77_killed prog input f g : encrypt_main_killed [prog; input] f g -> forall q, q <> input ++ lit "_enc" -> g q = f q.
Proof.
  unfold encrypt_main_killed. cbn [length Nat.eqb negb andb nth_error]. unfold encrypt_sw_file_to_file_crash. intros H q Q.
  destruct (fs_read f input); try now subst g. inversion H; subst; [reflexivity|]. unfold fs_set.
  assert (X : str_eqb (input ++ lit "_enc") q = false) by (apply str_eqb_neq; congruence). now rewrite X.
Qed.
Print Assumptions C77_killed.
Example C77_example :
  let f : fs := fun p => if str_eqb p (lit "a") then Some (lit "hi") else None in
  encrypt_args [lit "enc"; lit "a"] (lit "a") (lit "a_enc") /\ encrypt_args [lit "enc"; lit "a"; lit "b"] (lit "a") (lit "b") /\
  f (lit "a") = Some (utf8_encode (lit "hi")) /\ lit "a" <> lit "a" ++ lit "_enc" /\
  r_out (encrypt_main [lit "enc"; lit "a"; lit "b"] f) = lit "Saving as b" ++ [10] ++ lit "Successfully encrypted a" ++ [10] /\
  r_out (decrypt_main (fun _ => []) [lit "dec"; lit "a_enc"] (r_files (encrypt_main [lit "enc"; lit "a"] f))) = lit "hi" ++ [10] /\
  (* a plain file is not decrypted; a file that is not there is not encrypted *)
  r_code (decrypt_main (fun _ => []) [lit "dec"; lit "a"] f) = 1 /\ r_code (encrypt_main [lit "enc"; lit "b"] f) = 1.
Proof.
  cbn zeta. split; [apply (ea_default (lit "enc") (lit "a"))|]. split; [constructor|]. repeat split; try (vm_compute; reflexivity). vm_compute. discriminate.
Qed.

(** ** C78 *)
(** the run of a program that lists what [parse] makes of a text file: [lines] says what is printed. In every other case it
    panics before printing anything. *)
Definition lists {E A} (parse : str -> res E A) (lines : A -> list str -> Prop) (args : list str) (f : fs) (r : run) : Prop :=
  (forall t x, names_text args f utf8_encode t -> parse t = Ok x -> exists ls, lines x ls /\ r = exits 0 (text_of_lines ls) f) /\
  ((forall t x, names_text args f utf8_encode t -> parse t <> Ok x) -> r = exits 101 [] f).
Lemma parse_main_lists {E A} (parse : str -> res E A) (lines : A -> list str -> Prop) listing args f :
  (forall x, exists ls, lines x ls /\ listing x = text_of_lines ls) -> lists parse lines args f (parse_main parse listing args f).
Proof.
  intros L. unfold parse_main, read_to_string. split.
  - intros t x (prog & path & rest & -> & T & F) P. cbn [nth_error]. rewrite F. cbn [obind]. rewrite utf8_decode_encode by now apply string_ok_wf.
    rewrite P. destruct (L x) as (ls & H & ->). eauto.
  - intros N. destruct args as [|prog [|path rest]]; cbn [nth_error]; try reflexivity. destruct (f path) as [d|] eqn:F; [|reflexivity]. cbn [obind].
    destruct (utf8_decode d) as [t|] eqn:U; [|reflexivity]. destruct (parse t) as [x| |] eqn:P; try reflexivity. exfalso.
    apply utf8_decode_sound in U as [W <-]. apply (N t x); [|exact P]. exists prog, path, rest. split; [reflexivity|]. split; [now apply string_ok_wf|exact F].
Qed.
Theorem C78_resource args f : lists resource_parse (fun x ls => ls = resource_lines x) args f (parse_resource_main args f).
Proof. apply parse_main_lists. intros x. eexists. split; [reflexivity|apply resource_listing_lines]. Qed.
Print Assumptions C78_resource.
Theorem C78_view args f : lists view_parse view_file_lines args f (parse_view_main args f).
Proof. apply parse_main_lists, view_listing_lines. Qed.
Print Assumptions C78_view.
Theorem C78_logic mv args f : lists (logic_parse mv) logic_lines args f (parse_logic_main mv args f).
Proof. apply parse_main_lists, logic_listing_lines. Qed.
Print Assumptions C78_logic.
Theorem C78_file dbg args f : lists file_parse (fun x ls => ls = file_lines dbg x) args f (parse_file_main dbg args f).
Proof. apply parse_main_lists. intros x. eexists. split; [reflexivity|apply file_listing_lines]. Qed.
Print Assumptions C78_file.
Theorem C78_library dbg args f : lists library_parse (fun x ls => ls = [dbg x]) args f (parse_library_main dbg args f).
Proof. apply parse_main_lists. intros x. exists [dbg x]. split; [reflexivity|]. unfold text_of_lines. cbn [map concat]. now rewrite app_nil_r. Qed.
Print Assumptions C78_library.
Theorem C78_project dbg args f : lists project_parse (fun x ls => ls = [dbg x]) args f (parse_project_main dbg args f).
Proof. apply parse_main_lists. intros x. exists [dbg x]. split; [reflexivity|]. unfold text_of_lines. cbn [map concat]. now rewrite app_nil_r. Qed.
Print Assumptions C78_project.
(** on files that the library has written, the records themselves are listed *)
Theorem C78_written mv args f :
  (forall r, Forall (fun i => ri_type i < 256) (rs_images r ++ rs_sounds r ++ rs_fonts r) ->
     names_text args f utf8_encode (resource_reconstruct r) ->
     parse_resource_main args f = exits 0 (text_of_lines (resource_lines r)) f) /\
  (forall v, view_typed v -> separable_view v -> names_text args f utf8_encode (view_reconstruct v) ->
     exists ls, view_file_lines v ls /\ parse_view_main args f = exits 0 (text_of_lines ls) f) /\
  (forall l, logic_typed l -> nonempty_screens l -> containers_first l -> names_text args f utf8_encode (logic_reconstruct l) ->
     exists l' ls, Permutation.Permutation l' l /\ logic_lines l' ls /\ parse_logic_main mv args f = exits 0 (text_of_lines ls) f).
Proof.
  split; [|split].
  - intros r T N. destruct (proj1 (C78_resource args f) _ r N (C18_roundtrip r T)) as (ls & -> & E). exact E.
  - intros v T S N. exact (proj1 (C78_view args f) _ v N (C20_roundtrip_partial v T S)).
  - intros l T NE C N. destruct (C22_roundtrip_partial mv l T NE C) as (l' & R & P). destruct (proj1 (C78_logic mv args f) _ l' N R) as (ls & L & E). eauto.
Qed.
Print Assumptions C78_written.
Example C78_example :
  let i n := {| ri_full_name := lit n ++ lit ".png"; ri_name := lit n; ri_type := 1 |} in
  let r := {| rs_images := [i "a"%string; i "b"%string]; rs_sounds := []; rs_fonts := [i "c"%string] |} in
  let f : fs := fun p => if str_eqb p (lit "resource") then Some (utf8_encode (resource_reconstruct r))
                         else if str_eqb p (lit "logic") then Some (utf8_encode (lit "@MainActivity.java_var" ++ [10] ++ lit "1:n" ++ [10; 10])) else None in
  names_text [lit "p"; lit "resource"; lit "x"] f utf8_encode (resource_reconstruct r) /\
  r_out (parse_resource_main [lit "p"; lit "resource"; lit "x"] f) =
    [10] ++ lit "Fonts:" ++ [10] ++ lit " - c - c.png" ++ [10; 10] ++ lit "Images:" ++ [10] ++ lit " - a - a.png" ++ [10] ++ lit " - b - b.png" ++ [10; 10] ++
    lit "Sounds:" ++ [10] /\
  r_out (parse_logic_main true [lit "p"; lit "logic"] f) =
    lit "Screens:" ++ [10] ++ lit " - MainActivity: has 1 variables, 0 list variables, 0 components, 0 block containers, 0 events, 0 moreblocks" ++ [10] /\
  r_code (parse_view_main [lit "p"; lit "nowhere"] f) = 101 /\ r_code (parse_view_main [lit "p"] f) = 101.
Proof.
  cbn zeta. split.
  - exists (lit "p"), (lit "resource"), [lit "x"]. split; [reflexivity|]. split; [|reflexivity]. apply string_ok_wf. vm_compute. reflexivity.
  - repeat split; vm_compute; reflexivity.
Qed.

(** ** C79 *)
(** the six arguments after the first name files that decrypt to these texts *)
Definition demo_files (args : list str) (f : fs) (texts : list str) : Prop :=
  exists prog paths rest, args = prog :: paths ++ rest /\ length paths = 6%nat /\
    Forall2 (fun path t => exists d, f path = Some d /\ decrypt_sw_encrypted d = Ok (utf8_encode t) /\ string_ok t) paths texts.
Lemma demo_texts_iff args f texts : demo_texts args f = Some texts <-> demo_files args f texts.
Proof.
  unfold demo_texts, demo_files, demo_read. split.
  - destruct args as [|prog [|p1 [|p2 [|p3 [|p4 [|p5 [|p6 rest]]]]]]]; cbn [omapM nth_error obind]; try discriminate;
      try (repeat match goal with |- context [f ?p] => destruct (f p); cbn [obind] end; discriminate).
    intros H. exists prog, [p1; p2; p3; p4; p5; p6], rest. split; [reflexivity|]. split; [reflexivity|].
    assert (X : forall paths ts, (let? ds := omapM f paths in let? ps := omapM demo_decrypt ds in omapM utf8_decode ps) = Some ts ->
      Forall2 (fun path t => exists d, f path = Some d /\ decrypt_sw_encrypted d = Ok (utf8_encode t) /\ string_ok t) paths ts).
    { clear. induction paths as [|p paths IH]; intros ts H.
      - injection H as <-. constructor.
      - cbn [omapM] in H. destruct (f p) as [d|] eqn:F; [|discriminate]. cbn [obind] in H. destruct (omapM f paths) as [ds|]; [|discriminate].
        cbn [obind omapM] in H. unfold demo_decrypt at 1 in H. destruct (decrypt_sw_encrypted d) as [q| |] eqn:D; try discriminate. cbn [obind] in H, IH.
        destruct (omapM demo_decrypt ds) as [ps|]; [|discriminate]. cbn [obind omapM] in H, IH. destruct (utf8_decode q) as [t|] eqn:U; [|discriminate].
        cbn [obind] in H. destruct (omapM utf8_decode ps) as [ts'|]; [|discriminate]. cbn [obind] in H. injection H as <-. constructor; [|now apply IH].
        apply utf8_decode_sound in U as [W <-]. exists d. split; [exact F|]. split; [exact D|]. now apply string_ok_wf. }
    apply X. cbn [omapM]. destruct (f p1); cbn [obind] in *; [|discriminate]. destruct (f p2); cbn [obind] in *; [|discriminate]. destruct (f p3); cbn [obind] in *; [|discriminate].
    destruct (f p4); cbn [obind] in *; [|discriminate]. destruct (f p5); cbn [obind] in *; [|discriminate]. destruct (f p6); cbn [obind] in *; [|discriminate]. exact H.
  - intros (prog & paths & rest & -> & L & F). destruct paths as [|p1 [|p2 [|p3 [|p4 [|p5 [|p6 [|p7 ps]]]]]]]; try discriminate L.
    repeat match goal with H : Forall2 _ (_ :: _) _ |- _ => inversion H; clear H; subst | H : Forall2 _ [] _ |- _ => inversion H; clear H; subst end.
    repeat match goal with H : exists d, _ |- _ => destruct H as (? & ? & ? & ?) end.
    cbn [app omapM nth_error obind]. repeat match goal with H : f _ = Some _ |- _ => rewrite H; clear H; cbn [obind] end.
    unfold demo_decrypt. cbn [omapM]. repeat match goal with H : decrypt_sw_encrypted _ = _ |- _ => rewrite H; clear H; cbn [obind] end.
    cbn [omapM]. repeat match goal with H : string_ok _ |- _ => rewrite utf8_decode_encode by (apply string_ok_wf; exact H); clear H; cbn [obind] end.
    reflexivity.
Qed.
(** the file system as [Path::exists] sees it *)
Definition there (f : fs) (p : str) : bool := match f p with Some _ => true | None => false end.
Definition demo_loads (mv : bool) rnd args f (p : sw_project) : Prop :=
  exists project file library resource view logic parsed, demo_files args f [project; file; library; resource; view; logic] /\
    parse_project mv (there f) project file library resource view logic [] = Ok parsed /\ project_try_from rnd parsed = Ok p.
(** the events of a project that can be loaded are listed with their code; in every other case nothing is printed *)
Theorem C79_runs mv rnd dbg args f :
  (forall p, demo_loads mv rnd args f p -> exists ls, project_lines dbg p ls /\ api_demo1_main mv rnd dbg args f = exits 0 (text_of_lines ls) f) /\
  ((forall p, ~ demo_loads mv rnd args f p) -> api_demo1_main mv rnd dbg args f = exits 101 [] f).
Proof.
  unfold api_demo1_main. fold (there f). split.
  - intros p (project & file & library & resource & view & logic & parsed & D & P & T). apply demo_texts_iff in D. rewrite D, P, T.
    destruct (demo_listing_lines dbg p) as (ls & L & ->). eauto.
  - intros N. destruct (demo_texts args f) as [[|project [|file [|library [|resource [|view [|logic [|x r]]]]]]]|] eqn:D; try reflexivity.
    destruct (parse_project mv (there f) project file library resource view logic []) as [parsed| |] eqn:P; try reflexivity.
    destruct (project_try_from rnd parsed) as [p| |] eqn:T; try reflexivity. exfalso. apply (N p).
    exists project, file, library, resource, view, logic, parsed. split; [now apply demo_texts_iff|]. auto.
Qed.
Print Assumptions C79_runs.
(** A project that lists any resource cannot be shown: the program gives no resource files to the library *)
Theorem C79_resources mv rnd dbg args f project file library resource view logic r :
  demo_files args f [project; file; library; resource; view; logic] -> resource_parse resource = Ok r ->
  rs_images r ++ rs_sounds r ++ rs_fonts r <> [] -> api_demo1_main mv rnd dbg args f = exits 101 [] f.
Proof.
  intros D R N. apply (proj2 (C79_runs mv rnd dbg args f)). intros p (a & b & c & d & e & g & parsed & D' & P & T).
  apply demo_texts_iff in D, D'. rewrite D in D'. injection D' as <- <- <- <- <- <-.
  unfold parse_project in P. apply parse_from_ok in P as (_ & _ & _ & R' & _ & _ & G). cbn [rp_resource] in R'. cbn [rp_resource_files] in G. destruct G as (h & G & PF). cbn in G. injection G as <-.
  rewrite R in R'. injection R' as ->.
  apply ApiProjectProofs.try_from_inv in T as (? & im & so & fo & _ & _ & _ & _ & _ & _ & T1 & T2 & T3 & _). rewrite PF in T1, T2, T3. cbn in T1, T2, T3. apply N.
  destruct (rs_images (pp_resource parsed)); [|discriminate T1]. destruct (rs_sounds (pp_resource parsed)); [|discriminate T2].
  destruct (rs_fonts (pp_resource parsed)); [|discriminate T3]. reflexivity.
Qed.
Print Assumptions C79_resources.
(** the nesting of the blocks can be told from what is printed, if no label has a newline *)
Theorem C79_faithful n l l' : one_line l -> one_line l' -> print_blocks n l = print_blocks n l' -> same_shape l l'.
Proof. apply listing_shape. Qed.
Print Assumptions C79_faithful.
Definition demo_block (op : string) (s1 s2 : option blocks) : ablock :=
  MkBlock s1 s2 {| cval := 0xff4a6cd4 |} (lit op) [SText (lit "x"); SParam (ArgString None (AValue (lit "y")))] TRegular.
Example C79_example_code :
  print_blocks 8 [demo_block "if" (Some [demo_block "toast" None None]) (Some [])] =
    text_of_lines [lit "        Block #if opcode x %s"; lit "        substack1: "; lit "          Block #toast opcode x %s"; [];
                   lit "        substack2: "; []; []] /\
  one_line [demo_block "if" (Some [demo_block "toast" None None]) (Some [])].
Proof.
  split; [vm_compute; reflexivity|].
  assert (L : forall s1 s2 op t, block_label (demo_block op s1 s2) t -> ~ In 10 (lit op) -> ~ In 10 t).
  { intros s1 s2 op t B N. apply label_iff in B as ->. unfold label. cbn [demo_block ab_op_code ab_content].
    change (~ In 10 (lit "Block #" ++ lit op ++ lit " opcode x %s")). rewrite !in_app_iff. intros [H|[H|H]]; [cbn in H; intuition discriminate|tauto|cbn in H; intuition discriminate]. }
  repeat first [apply ol_cons | apply ol_nil | apply on_none | apply on_some]; intros t B; eapply L in B; try exact B; cbn; intuition discriminate.
Qed.
Definition demo_parsed (images : list resource_item) : parsed_project :=
  {| pp_project := ex_project 1636974733;
     pp_file := {| f_activities := [file_entry "main" FtActivity true]; f_custom_views := [] |};
     pp_library := lib0 "Y" "N" "Y" "N"; pp_resource := {| rs_images := images; rs_sounds := []; rs_fonts := [] |};
     pp_view := {| vw_layouts := [(lit "main", [])]; vw_fabs := [] |};
     pp_logic := [(lit "MainActivity", logic0 [])]; pp_resource_files := None |}.
Definition demo_written (images : list resource_item) : list str :=
  match data_files (demo_parsed images) with Ok (a, b, c, d, e, g) => [a; b; c; d; e; g] | _ => [] end.
(** the six files, called 1 to 6 *)
Definition demo_fs (texts : list str) : fs :=
  fun p => match p with [c] => option_map (fun t => encrypt_sw (utf8_encode t)) (nth_error texts (N.to_nat (c - 49))) | _ => None end.
Lemma demo_fs_files texts : length texts = 6%nat -> Forall string_ok texts ->
  demo_files [lit "demo"; lit "1"; lit "2"; lit "3"; lit "4"; lit "5"; lit "6"] (demo_fs texts) texts.
Proof.
  intros L F. exists (lit "demo"), [lit "1"; lit "2"; lit "3"; lit "4"; lit "5"; lit "6"], []. split; [reflexivity|]. split; [reflexivity|].
  destruct texts as [|a [|b [|c [|d [|e [|g [|x r]]]]]]]; try discriminate L.
  assert (X : forall p t, demo_fs [a; b; c; d; e; g] p = Some (encrypt_sw (utf8_encode t)) -> string_ok t ->
    exists y, demo_fs [a; b; c; d; e; g] p = Some y /\ decrypt_sw_encrypted y = Ok (utf8_encode t) /\ string_ok t).
  { intros p t E T. exists (encrypt_sw (utf8_encode t)). split; [exact E|]. split; [|exact T]. apply C01_decrypt_encrypt. now apply utf8_bytes. }
  rewrite !Forall_cons_iff in F. destruct F as (? & ? & ? & ? & ? & ? & _).
  repeat (constructor; [apply X; [reflexivity|assumption]|]). constructor.
Qed.
Example C79_example :
  let image := {| ri_full_name := lit "a.png"; ri_name := lit "a"; ri_type := 1 |} in
  let shown images := match demo_written images with
    | [a; b; c; d; e; g] => match parse_project true (fun _ => false) a b c d e g [] with
        | Ok parsed => rmap (demo_listing (fun _ => lit "Activity")) (project_try_from rnd0 parsed)
        | _ => Panic end
    | _ => Panic end in
  Forall string_ok (demo_written []) /\ length (demo_written []) = 6%nat /\
  shown [] = Ok (text_of_lines [lit "Screens:"; lit "  Screen main or MainActivity:"; lit "    Events:";
    lit "      - Event onCreate, type: Activity, blocks:"; lit "        Block #toast opcode Toast %s"; []]) /\
  shown [image] = Err (XMissingResourceFile (lit "a") (lit "a.png") RImage).
Proof.
  cbn zeta. split.
  - assert (X : forall l, forallb wf_str l = true -> Forall string_ok l).
    { induction l as [|t l IH]; cbn [forallb]; intros H; constructor; apply andb_prop in H as [H1 H2]; [now apply string_ok_wf|auto]. }
    apply X. vm_compute. reflexivity.
  - split; [vm_compute; reflexivity|]. split; vm_compute; reflexivity.
Qed.
