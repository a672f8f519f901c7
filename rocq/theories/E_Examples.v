(** Model of the programs in /repo/examples: from the command line and the file system to what is printed on standard
    output, the exit code and the file system left behind.

    Arguments are valid Unicode ([env::args] panics otherwise). Standard error and the wording of panics are not modelled,
    nor is a standard output that cannot be written to. A panic ends the process with code 101. Derived [Debug] output is a
    parameter [dbg...] of the programs that print it; the theorems are about every such function. *)
From Verif Require Import Base Dec Crypto Utf8 M_Raw M_Project M_File M_Library M_Resource M_View M_Logic M_Parsed A_Block A_Screen A_Project.

Record run := { r_code : N; r_out : str; r_files : fs }.
Definition exits (code : N) (out : str) (f : fs) : run := {| r_code := code; r_out := out; r_files := f |}.
Definition panics (out : str) (f : fs) : run := exits 101 out f.
(** [println!] *)
Definition println (s : str) : str := s ++ [10].

(** ** encrypt.rs, decrypt.rs *)
(** encrypt.rs L7-36. The usage text goes to standard error; its [args.get(0).unwrap()] panics without any argument. *)
Definition encrypt_main (args : list str) (f : fs) : run :=
  if negb (length args =? 3)%nat && negb (length args =? 2)%nat then
    match nth_error args 0 with Some _ => exits 1 [] f | None => panics [] f end
  else match nth_error args 1 with
  | None => panics [] f
  | Some input =>
    let default_output := input ++ lit "_enc" in
    let output := match nth_error args 2 with Some o => o | None => default_output end in
    let out := println (lit "Saving as " ++ output) in
    match encrypt_sw_file_to_file f input (Some output) with
    | (Ok _, g) => exits 0 (out ++ println (lit "Successfully encrypted " ++ input)) g
    | (Err _, g) => exits 1 out g
    | (Panic, g) => panics out g
    end
  end.
(** the states in which the file system can be when the process is killed; L7-28 *)
Definition encrypt_main_killed (args : list str) (f g : fs) : Prop :=
  if negb (length args =? 3)%nat && negb (length args =? 2)%nat then g = f
  else match nth_error args 1 with
  | None => g = f
  | Some input =>
    encrypt_sw_file_to_file_crash f input (Some match nth_error args 2 with Some o => o | None => input ++ lit "_enc" end) g
  end.
(** decrypt.rs L7-27 *)
Definition decrypt_main (dbg : crypto_error -> str) (args : list str) (f : fs) : run :=
  if negb (length args =? 2)%nat then
    match nth_error args 0 with Some _ => exits 1 [] f | None => panics [] f end
  else match nth_error args 1 with
  | None => panics [] f
  | Some path =>
    match decrypt_sw_file f path with
    | Err e => exits 1 (println (dbg e)) f
    | Panic => panics [] f
    | Ok d => match utf8_decode d with Some t => exits 0 (println t) f | None => panics [] f end
    end
  end.

(** ** The programs that parse one data file *)
(** [std::fs::read_to_string] *)
Definition read_to_string (f : fs) (p : str) : option str := let? d := f p in utf8_decode d.
(** L7-14 of each of them: the first argument names a text file, which is parsed; anything else panics. Further
    arguments are ignored. *)
Definition parse_main {E A} (parse : str -> res E A) (listing : A -> str) (args : list str) (f : fs) : run :=
  match nth_error args 1 with
  | None => panics [] f
  | Some filename =>
    match read_to_string f filename with
    | None => panics [] f
    | Some t => match parse t with Ok x => exits 0 (listing x) f | _ => panics [] f end
    end
  end.
(** parse_resource.rs L16-29; [println!("\nFonts:")] *)
Definition res_line (i : resource_item) : str := println (lit " - " ++ ri_name i ++ lit " - " ++ ri_full_name i).
Definition resource_listing (r : resource) : str :=
  println (10 :: lit "Fonts:") ++ flat_map res_line (rs_fonts r) ++
  println (10 :: lit "Images:") ++ flat_map res_line (rs_images r) ++
  println (10 :: lit "Sounds:") ++ flat_map res_line (rs_sounds r).
Definition parse_resource_main := parse_main resource_parse resource_listing.
(** parse_view.rs L16-25 *)
Fixpoint view_lines (index : N) (l : layout) : str :=
  match l with
  | [] => []
  | v :: r => println (lit "  " ++ dec_of_N index ++ lit ". id: " ++ av_id v ++ lit ", type: " ++ dec_of_N (av_type v)) ++
              view_lines (index + 1) r
  end.
Definition view_listing (v : view) : str :=
  println (lit "Screens ==") ++
  flat_map (fun kv => println (lit " Views of layout " ++ fst kv ++ lit ":") ++ view_lines 0 (snd kv) ++ println []) (vw_layouts v).
Definition parse_view_main := parse_main view_parse view_listing.
(** parse_logic.rs L16-28 *)
Definition count {A} (l : list A) : str := dec_of_N (N.of_nat (length l)).
Definition logic_line (kv : str * screen_logic) : str :=
  let s := snd kv in
  println (lit " - " ++ fst kv ++ lit ": has " ++
    count (or_empty (sl_variables s)) ++ lit " variables, " ++
    count (or_empty (sl_list_variables s)) ++ lit " list variables, " ++
    count (or_empty (sl_components s)) ++ lit " components, " ++
    count (sl_block_containers s) ++ lit " block containers, " ++
    count (or_empty (sl_events s)) ++ lit " events, " ++
    count (or_empty (sl_more_blocks s)) ++ lit " moreblocks").
Definition logic_listing (l : logic) : str := println (lit "Screens:") ++ flat_map logic_line l.
Definition parse_logic_main (mv : bool) := parse_main (logic_parse mv) logic_listing.
(** parse_file.rs L16-24 *)
Definition file_line (dbg : file_item -> str) (i : file_item) : str := println (lit " - " ++ fi_filename i ++ lit ": " ++ dbg i).
Definition file_listing (dbg : file_item -> str) (x : file) : str :=
  println (lit "Activities:") ++ flat_map (file_line dbg) (f_activities x) ++
  println (10 :: lit "Custom views:") ++ flat_map (file_line dbg) (f_custom_views x).
Definition parse_file_main (dbg : file_item -> str) := parse_main file_parse (file_listing dbg).
(** parse_library.rs L16, parse_project.rs L16 *)
Definition parse_library_main (dbg : library -> str) := parse_main library_parse (fun l => println (dbg l)).
Definition parse_project_main (dbg : project -> str) := parse_main project_parse (fun p => println (dbg p)).

(** ** api_demo1.rs *)
(** api_demo1.rs L55-71. The indentation is a [u32]; its overflow (and that of the stack) is not modelled. The local
    fixpoints follow the nesting of the blocks. *)
Fixpoint print_block (indentation : nat) (b : ablock) {struct b} : str :=
  let print_blocks := fix print_blocks (l : list ablock) : str :=
    match l with [] => println [] | b :: r => print_block (indentation + 2) b ++ print_blocks r end in
  let pad := repeat 32 indentation in
  match b with
  | MkBlock s1 s2 _ op content _ =>
    println (pad ++ lit "Block #" ++ op ++ lit " opcode " ++ content_to_string content) ++
    match s1 with Some l => println (pad ++ lit "substack1: ") ++ print_blocks l | None => [] end ++
    match s2 with Some l => println (pad ++ lit "substack2: ") ++ print_blocks l | None => [] end
  end.
Definition print_blocks (indentation : nat) (l : blocks) : str := flat_map (print_block indentation) l ++ println [].
(** api_demo1.rs L46-75 *)
Definition event_listing (dbg : event_type -> str) (e : aevent) : str :=
  println (lit "      - Event " ++ ae_name e ++ lit ", type: " ++ dbg (ae_type e) ++ lit ", blocks:") ++ print_blocks 8 (ae_code e).
Definition demo_listing (dbg : event_type -> str) (p : sw_project) : str :=
  println (lit "Screens:") ++
  flat_map (fun s =>
    println (lit "  Screen " ++ sc_layout_name s ++ lit " or " ++ sc_java_name s ++ lit ":") ++
    println (lit "    Events:") ++ flat_map (event_listing dbg) (sc_events s)) (sp_screens p).
(** api_demo1.rs L13-36: the arguments are read, then decrypted, then decoded, in order; [None] is a panic *)
Definition demo_read (args : list str) (f : fs) (n : nat) : option (list N) := let? p := nth_error args n in f p.
Definition demo_decrypt (d : list N) : option (list N) := match decrypt_sw_encrypted d with Ok x => Some x | _ => None end.
Definition demo_texts (args : list str) (f : fs) : option (list str) :=
  let? ds := omapM (demo_read args f) [1; 2; 3; 4; 5; 6]%nat in
  let? ps := omapM demo_decrypt ds in
  omapM utf8_decode ps.
(** api_demo1.rs L9-76; the project is given an empty list of resource files (L42, parser/mod.rs L52-70) *)
Definition api_demo1_main (mv : bool) (rnd : res_type -> nat -> N) (dbg : event_type -> str) (args : list str) (f : fs) : run :=
  match demo_texts args f with
  | Some [project; file; library; resource; view; logic] =>
    match parse_project mv (fun p => match f p with Some _ => true | None => false end)
            project file library resource view logic [] with
    | Ok parsed => match project_try_from rnd parsed with Ok p => exits 0 (demo_listing dbg p) f | _ => panics [] f end
    | _ => panics [] f
    end
  | _ => panics [] f
  end.
