(** Model of /repo/src/parser/logic.rs. *)
From Verif Require Import Base Dec Json Recs M_Color.

(** ** Reading the lines of one section *)
(** logic.rs L402-408, L559-565, L685-691, L825-831, L938-944 *)
Record pool_error (E : Type) := { pe_count : N; pe_content : str; pe_source : E }.
Arguments pe_count {E}. Arguments pe_content {E}. Arguments pe_source {E}.
(** [for (count, line) in newline_iter.by_ref().take_while(|i| *i != "").enumerate()]: the first empty
    line is consumed and ends the section. Returns the accumulator and the lines left in the iterator.
    [count as u32] is not wrapped (a section of 2^32 lines). *)
Fixpoint pool_loop {E A M} (p : str -> res E A) (ins : A -> M -> M) (lines : list str) (count : N) (acc : M)
  : res (pool_error E) (M * list str) :=
  match lines with
  | [] => Ok (acc, [])
  | l :: r =>
    match l with
    | [] => Ok (acc, r)
    | _ =>
      let* a := map_err (fun e => {| pe_count := count; pe_content := l; pe_source := e |}) (p l) in
      pool_loop p ins r (count + 1) (ins a acc)
    end
  end.
(** [Vec::push] *)
Definition vpush {A} (a : A) (v : list A) : list A := v ++ [a].

(** ** Variables *)
(** logic.rs L466-473, [as u8], L475-487 *)
Inductive variable_type := VtBoolean | VtInteger | VtString | VtHashMap.
Definition variable_type_num (t : variable_type) : N :=
  match t with VtBoolean => 0 | VtInteger => 1 | VtString => 2 | VtHashMap => 3 end.
Definition variable_type_of (n : N) : option variable_type :=
  if n =? 0 then Some VtBoolean else if n =? 1 then Some VtInteger
  else if n =? 2 then Some VtString else if n =? 3 then Some VtHashMap else None.
(** logic.rs L416-420 *)
Record variable := { va_name : str; va_type : variable_type }.
(** logic.rs L451-464; the [ParseIntError] is not distinguished *)
Inductive variable_error :=
| MalformedVariable (content : str) | MalformedVariableType (content : str) | InvalidVariableType (value : N).
(** logic.rs L426-444 *)
Definition variable_parse (s : str) : res variable_error variable :=
  let* tn := ok_or (MalformedVariable s) (split_once (lit ":") s) in
  let '(var_type, var_name) := tn in
  let* n := ok_or (MalformedVariableType var_type) (parse_u8 var_type) in
  let* t := ok_or (InvalidVariableType n) (variable_type_of n) in
  Ok {| va_name := var_name; va_type := t |}.
(** logic.rs L446-448 *)
Definition variable_reconstruct (v : variable) : str :=
  dec_of_N (variable_type_num (va_type v)) ++ lit ":" ++ va_name v.
(** logic.rs L354-355; the map from names. The default pools (L410-414, L567-571, L703-707, L833-837, L946-950, L1076-1078) are empty. *)
Definition variable_pool := smap variable.
(** logic.rs L373 *)
Definition ins_variable (v : variable) (m : variable_pool) : variable_pool := sinsert (va_name v) v m.
(** logic.rs L359-377 *)
Definition variable_pool_parse_iter (lines : list str) : res (pool_error variable_error) (variable_pool * list str) :=
  pool_loop variable_parse ins_variable lines 0 [].
(** logic.rs L385-387 *)
Definition variable_pool_parse (s : str) : res (pool_error variable_error) variable_pool :=
  rmap fst (variable_pool_parse_iter (split_on NL s)).
(** logic.rs L389-397: fold of "{acc}\n{i}", then trim *)
Definition variable_pool_reconstruct (p : variable_pool) : str :=
  trim (fold_left (fun acc i => acc ++ [NL] ++ variable_reconstruct i) (map snd p) []).

(** ** List variables *)
(** logic.rs L573-577 *)
Record list_variable := { lv_name : str; lv_type : variable_type }.
(** logic.rs L606-616 *)
Inductive list_variable_error := LvMissingColon | LvTypeIsNotInt | LvInvalidVariableType (value : N).
(** logic.rs L583-599 *)
Definition list_variable_parse (s : str) : res list_variable_error list_variable :=
  let* tn := ok_or LvMissingColon (split_once (lit ":") s) in
  let '(lvar_type, name) := tn in
  let* n := ok_or LvTypeIsNotInt (parse_u8 lvar_type) in
  let* t := ok_or (LvInvalidVariableType n) (variable_type_of n) in
  Ok {| lv_name := name; lv_type := t |}.
(** logic.rs L601-603 *)
Definition list_variable_reconstruct (v : list_variable) : str :=
  dec_of_N (variable_type_num (lv_type v)) ++ lit ":" ++ lv_name v.
(** logic.rs L506-507 *)
Definition list_variable_pool := smap list_variable.
(** logic.rs L531 *)
Definition ins_list_variable (v : list_variable) (m : list_variable_pool) : list_variable_pool := sinsert (lv_name v) v m.
(** logic.rs L511-535 *)
Definition list_variable_pool_parse_iter (lines : list str) : res (pool_error list_variable_error) (list_variable_pool * list str) :=
  pool_loop list_variable_parse ins_list_variable lines 0 [].
(** logic.rs L542-544 *)
Definition list_variable_pool_parse (s : str) : res (pool_error list_variable_error) list_variable_pool :=
  rmap fst (list_variable_pool_parse_iter (split_on NL s)).
(** logic.rs L546-554 *)
Definition list_variable_pool_reconstruct (p : list_variable_pool) : str :=
  trim (fold_left (fun acc i => acc ++ [NL] ++ list_variable_reconstruct i) (map snd p) []).

(** ** Components *)
(** logic.rs L709-719 *)
Record component := { co_id : str; co_param1 : str; co_param2 : str; co_param3 : str; co_type : N }.
Definition component_names : list string := ["componentId"; "param1"; "param2"; "param3"; "type"]%string.
Definition d_component (j : json) : option component :=
  let? fs := sf component_names j in
  match fs with
  | [a; b; c; d; e] =>
    let? i := req d_str a in let? p := req d_str b in let? q := req d_str c in let? r := req d_str d in
    let? t := req d_u8 e in
    Some {| co_id := i; co_param1 := p; co_param2 := q; co_param3 := r; co_type := t |}
  | _ => None
  end.
Definition component_fields (x : component) : list (string * json) :=
  [("componentId", e_str (co_id x)); ("param1", e_str (co_param1 x)); ("param2", e_str (co_param2 x));
   ("param3", e_str (co_param3 x)); ("type", e_int (Z.of_N (co_type x)))]%string.
Definition e_component (x : component) : json := e_obj (component_fields x).
(** logic.rs L747-753; a serde_json error is [tt], serialising these records never fails *)
Definition component_parse (s : str) : res unit component := ok_or tt (from_str d_component s).
Definition component_reconstruct (x : component) : str := to_string e_component x.
(** logic.rs L723-740 *)
Definition component_new (id p1 p2 p3 : str) (t : N) : component :=
  {| co_id := id; co_param1 := p1; co_param2 := p2; co_param3 := p3; co_type := t |}.
Definition component_new_empty (id : str) (t : N) : component := component_new id [] [] [] t.
Definition component_new_1param (id p1 : str) (t : N) : component := component_new id p1 [] [] t.
Definition component_new_2params (id p1 p2 : str) (t : N) : component := component_new id p1 p2 [] t.
(** logic.rs L628-649; the caller passes [&mut lines] *)
Definition component_pool_parse_iter (lines : list str) : res (pool_error unit) (list component * list str) :=
  pool_loop component_parse vpush lines 0 [].
(** logic.rs L656-658 *)
Definition component_pool_parse (s : str) : res (pool_error unit) (list component) :=
  rmap fst (component_pool_parse_iter (split_on NL s)).
(** logic.rs L660-680 *)
Definition component_pool_reconstruct (p : list component) : str :=
  trim_end (fold_left (fun acc i => acc ++ component_reconstruct i ++ [NL]) p []).

(** ** More blocks *)
(** logic.rs L841-844 *)
Record more_block := { mb_id : str; mb_spec : str }.
(** logic.rs L872-878 *)
Inductive more_block_error := MalformedMoreBlock (content : str).
(** logic.rs L854-864 *)
Definition more_block_parse (s : str) : res more_block_error more_block :=
  let* p := ok_or (MalformedMoreBlock s) (split_once (lit ":") s) in
  let '(id, spec) := p in Ok {| mb_id := id; mb_spec := spec |}.
(** logic.rs L867-869 *)
Definition more_block_reconstruct (m : more_block) : str := mb_id m ++ lit ":" ++ mb_spec m.
(** logic.rs L763 *)
Definition more_block_pool := smap more_block.
(** logic.rs L767-798: collect, then insert one by one *)
Definition more_block_pool_parse_iter (lines : list str) : res (pool_error more_block_error) (more_block_pool * list str) :=
  let* vr := pool_loop more_block_parse vpush lines 0 [] in
  let '(v, rest) := vr in
  Ok (fold_left (fun m b => sinsert (mb_id b) b m) v [], rest).
(** logic.rs L807-809 *)
Definition more_block_pool_parse (s : str) : res (pool_error more_block_error) more_block_pool :=
  rmap fst (more_block_pool_parse_iter (split_on NL s)).
(** logic.rs L812-820 *)
Definition more_block_pool_reconstruct (p : more_block_pool) : str :=
  trim (fold_left (fun acc i => acc ++ [NL] ++ more_block_reconstruct i) (map snd p) []).

(** ** Events *)
(** logic.rs L952-959 *)
Record event := { ev_name : str; ev_type : N; ev_target_id : str; ev_target_type : N }.
Definition event_names : list string := ["eventName"; "eventType"; "targetId"; "targetType"]%string.
Definition d_event (j : json) : option event :=
  let? fs := sf event_names j in
  match fs with
  | [a; b; c; d] =>
    let? n := req d_str a in let? t := req d_u8 b in let? i := req d_str c in let? k := req d_u8 d in
    Some {| ev_name := n; ev_type := t; ev_target_id := i; ev_target_type := k |}
  | _ => None
  end.
Definition event_fields (x : event) : list (string * json) :=
  [("eventName", e_str (ev_name x)); ("eventType", e_int (Z.of_N (ev_type x)));
   ("targetId", e_str (ev_target_id x)); ("targetType", e_int (Z.of_N (ev_target_type x)))]%string.
Definition e_event (x : event) : json := e_obj (event_fields x).
(** logic.rs L965-971 *)
Definition event_parse (s : str) : res unit event := ok_or tt (from_str d_event s).
Definition event_reconstruct (x : event) : str := to_string e_event x.
(** logic.rs L891-914 *)
Definition event_pool_parse_iter (lines : list str) : res (pool_error unit) (list event * list str) :=
  pool_loop event_parse vpush lines 0 [].
(** logic.rs L921-923 *)
Definition event_pool_parse (s : str) : res (pool_error unit) (list event) :=
  rmap fst (event_pool_parse_iter (split_on NL s)).
(** logic.rs L925-933 *)
Definition event_pool_reconstruct (p : list event) : str :=
  trim (fold_left (fun acc i => acc ++ [NL] ++ event_reconstruct i) p []).

(** ** Blocks *)
(** logic.rs L1099-1112 *)
Record block := {
  bl_color : color; bl_id : str; bl_next_block : Z; bl_op_code : str; bl_parameters : list str;
  bl_spec : str; bl_sub_stack1 : Z; bl_sub_stack2 : Z; bl_type : str; bl_type_name : str
}.
Definition block_names : list string :=
  ["color"; "id"; "nextBlock"; "opCode"; "parameters"; "spec"; "subStack1"; "subStack2"; "type"; "typeName"]%string.
Definition d_block (j : json) : option block :=
  let? fs := sf block_names j in
  match fs with
  | [a; b; c; d; e; f; g; h; i; k] =>
    let? co := req d_color a in let? id := req d_str b in let? nx := req d_i32 c in let? op := req d_str d in
    let? ps := req (d_list d_str) e in let? sp := req d_str f in let? s1 := req d_i32 g in let? s2 := req d_i32 h in
    let? ty := req d_str i in let? tn := req d_str k in
    Some {| bl_color := co; bl_id := id; bl_next_block := nx; bl_op_code := op; bl_parameters := ps; bl_spec := sp;
            bl_sub_stack1 := s1; bl_sub_stack2 := s2; bl_type := ty; bl_type_name := tn |}
  | _ => None
  end.
Definition block_fields (x : block) : list (string * json) :=
  [("color", e_color (bl_color x)); ("id", e_str (bl_id x)); ("nextBlock", e_int (bl_next_block x));
   ("opCode", e_str (bl_op_code x)); ("parameters", JArr (map e_str (bl_parameters x))); ("spec", e_str (bl_spec x));
   ("subStack1", e_int (bl_sub_stack1 x)); ("subStack2", e_int (bl_sub_stack2 x));
   ("type", e_str (bl_type x)); ("typeName", e_str (bl_type_name x))]%string.
Definition e_block (x : block) : json := e_obj (block_fields x).
(** logic.rs L1118-1124 *)
Definition block_parse (s : str) : res unit block := ok_or tt (from_str d_block s).
Definition block_reconstruct (x : block) : str := to_string e_block x.
(** logic.rs L1025; L1029-1044. The error of a block has no [content] in Rust; it is [l] here and dropped
    in [block_container_error]. *)
Definition block_container := list block.
Record block_container_error := { bce_block_count : N }.
Definition block_container_parse_iter (lines : list str) : res block_container_error (block_container * list str) :=
  map_err (fun e => {| bce_block_count := pe_count e |}) (pool_loop block_parse vpush lines 0 []).
(** logic.rs L1052-1054 *)
Definition block_container_parse (s : str) : res block_container_error block_container :=
  rmap fst (block_container_parse_iter (split_on NL s)).
(** logic.rs L1056-1073 *)
Definition block_container_reconstruct (p : block_container) : str :=
  fold_left (fun acc i => acc ++ block_reconstruct i ++ [NL]) p [].

(** ** Headers of block containers *)
(** logic.rs L978-981 *)
Record container_header := { ch_screen : str; ch_container : str }.
(** logic.rs L1011-1021 *)
Inductive container_header_error := DoesntStartWithAtSign | NoScreenName | NoContainerName.
(** logic.rs L988-1004: [split(".java_")], first and second piece; the first always exists. [1..] of a
    string that starts with "@" *)
Definition container_header_parse (s : str) : res container_header_error container_header :=
  if starts_with (lit "@") s then
    match split_once (lit ".java_") s with
    | None => let* _ := unwrap (bdrop 1 s) in Err NoContainerName
    | Some (a, b) =>
      let* n := unwrap (bdrop 1 a) in
      Ok {| ch_screen := n; ch_container := split_first (lit ".java_") b |}
    end
  else Err DoesntStartWithAtSign.
(** logic.rs L1006-1008 *)
Definition container_header_reconstruct (h : container_header) : str :=
  lit "@" ++ ch_screen h ++ lit ".java_" ++ ch_container h.

(** ** The whole file *)
(** logic.rs L323-331 *)
Record screen_logic := {
  sl_name : str; sl_block_containers : smap block_container; sl_variables : option variable_pool;
  sl_list_variables : option list_variable_pool; sl_components : option (list component);
  sl_events : option (list event); sl_more_blocks : option more_block_pool
}.
(** logic.rs L334-344 *)
Definition screen_new_empty (name : str) : screen_logic :=
  {| sl_name := name; sl_block_containers := []; sl_variables := None; sl_list_variables := None;
     sl_components := None; sl_events := None; sl_more_blocks := None |}.
(** logic.rs L13-18 *)
Definition logic := smap screen_logic.
(** the assignments of L55, L74, L93, L112, L130 and the insertion of L155-156 *)
Definition set_variables (p : variable_pool) (s : screen_logic) : screen_logic :=
  {| sl_name := sl_name s; sl_block_containers := sl_block_containers s; sl_variables := Some p;
     sl_list_variables := sl_list_variables s; sl_components := sl_components s; sl_events := sl_events s;
     sl_more_blocks := sl_more_blocks s |}.
Definition set_list_variables (p : list_variable_pool) (s : screen_logic) : screen_logic :=
  {| sl_name := sl_name s; sl_block_containers := sl_block_containers s; sl_variables := sl_variables s;
     sl_list_variables := Some p; sl_components := sl_components s; sl_events := sl_events s;
     sl_more_blocks := sl_more_blocks s |}.
Definition set_components (p : list component) (s : screen_logic) : screen_logic :=
  {| sl_name := sl_name s; sl_block_containers := sl_block_containers s; sl_variables := sl_variables s;
     sl_list_variables := sl_list_variables s; sl_components := Some p; sl_events := sl_events s;
     sl_more_blocks := sl_more_blocks s |}.
Definition set_events (p : list event) (s : screen_logic) : screen_logic :=
  {| sl_name := sl_name s; sl_block_containers := sl_block_containers s; sl_variables := sl_variables s;
     sl_list_variables := sl_list_variables s; sl_components := sl_components s; sl_events := Some p;
     sl_more_blocks := sl_more_blocks s |}.
Definition set_more_blocks (p : more_block_pool) (s : screen_logic) : screen_logic :=
  {| sl_name := sl_name s; sl_block_containers := sl_block_containers s; sl_variables := sl_variables s;
     sl_list_variables := sl_list_variables s; sl_components := sl_components s; sl_events := sl_events s;
     sl_more_blocks := Some p |}.
Definition add_container (c : str) (b : block_container) (s : screen_logic) : screen_logic :=
  {| sl_name := sl_name s; sl_block_containers := sinsert c b (sl_block_containers s); sl_variables := sl_variables s;
     sl_list_variables := sl_list_variables s; sl_components := sl_components s; sl_events := sl_events s;
     sl_more_blocks := sl_more_blocks s |}.
(** [*screens.entry(k).or_insert_with(|| new_empty(k))] followed by the update [f]. The source of
    [LinkedHashMap] is not part of /repo; whether [or_insert_with] on an occupied entry moves it to the back
    is the parameter [mv] (true in hashlink, which ritelinked is a fork of); every theorem is about both. *)
Fixpoint supdate (k : str) (f : screen_logic -> screen_logic) (m : logic) : logic :=
  match m with
  | [] => []
  | (k', v) :: r => if str_eqb k k' then (k', f v) :: r else (k', v) :: supdate k f r
  end.
Definition entry_update (mv : bool) (k : str) (f : screen_logic -> screen_logic) (m : logic) : logic :=
  match sget k m with
  | None => m ++ [(k, f (screen_new_empty k))]
  | Some v => if mv then sremove k m ++ [(k, f v)] else supdate k f m
  end.
(** logic.rs L255-304; [line] counts headers, not lines *)
Inductive logic_error :=
| LVariablePool (screen : str) (line : N) (e : pool_error variable_error)
| LListVariablePool (screen : str) (line : N) (e : pool_error list_variable_error)
| LComponentPool (screen : str) (line : N) (e : pool_error unit)
| LEventPool (screen : str) (line : N) (e : pool_error unit)
| LMoreBlockPool (screen : str) (line : N) (e : pool_error more_block_error)
| LHeader (line : N) (e : container_header_error)
| LBlockContainer (screen container : str) (line : N) (e : block_container_error).
(** [&line[1..line.len() - n]]; the subtraction of a larger number overflows, a panic as well *)
Definition header_name (n : nat) (line : str) : res logic_error str :=
  if (n <=? blen line)%nat then unwrap (bslice 1 (blen line - n) line) else Panic.
(** logic.rs L29-160. [fuel] bounds the number of sections, see [logic_parse] *)
Fixpoint logic_loop (mv : bool) (fuel : nat) (lines : list str) (n : N) (m : logic) : res logic_error logic :=
  match lines with
  | [] => Ok m
  | line :: rest =>
    match fuel with
    | O => Panic
    | S fuel =>
      if negb (starts_with (lit "@") line) then Ok m
      else if ends_with (lit "java_var") line then
        let* name := header_name 9 line in
        let* pr := map_err (LVariablePool name n) (variable_pool_parse_iter rest) in
        logic_loop mv fuel (snd pr) (n + 1) (entry_update mv name (set_variables (fst pr)) m)
      else if ends_with (lit "java_list") line then
        let* name := header_name 10 line in
        let* pr := map_err (LListVariablePool name n) (list_variable_pool_parse_iter rest) in
        logic_loop mv fuel (snd pr) (n + 1) (entry_update mv name (set_list_variables (fst pr)) m)
      else if ends_with (lit "java_components") line then
        let* name := header_name 16 line in
        let* pr := map_err (LComponentPool name n) (component_pool_parse_iter rest) in
        logic_loop mv fuel (snd pr) (n + 1) (entry_update mv name (set_components (fst pr)) m)
      else if ends_with (lit "java_events") line then
        let* name := header_name 12 line in
        let* pr := map_err (LEventPool name n) (event_pool_parse_iter rest) in
        logic_loop mv fuel (snd pr) (n + 1) (entry_update mv name (set_events (fst pr)) m)
      else if ends_with (lit "java_func") line then
        let* name := header_name 10 line in
        let* pr := map_err (LMoreBlockPool name n) (more_block_pool_parse_iter rest) in
        logic_loop mv fuel (snd pr) (n + 1) (entry_update mv name (set_more_blocks (fst pr)) m)
      else
        let* h := map_err (LHeader n) (container_header_parse line) in
        let* pr := map_err (LBlockContainer (ch_screen h) (ch_container h) n) (block_container_parse_iter rest) in
        logic_loop mv fuel (snd pr) (n + 1) (entry_update mv (ch_screen h) (add_container (ch_container h) (fst pr)) m)
    end
  end.
(** logic.rs L24-163; every section uses at least its header line, so the fuel never runs out
    ([logic_loop_fuel] in LogicFileProofs.v) *)
Definition logic_parse (mv : bool) (s : str) : res logic_error logic :=
  let lines := split_on NL s in logic_loop mv (List.length lines) lines 0 [].

(** logic.rs L175-180, L182-187, L189-194, L196-207, L209-214: at most one section of each kind per screen *)
Definition osection {A} (o : option A) (f : A -> str) : list str := match o with Some a => [f a] | None => [] end.
Definition sec_variables (s : screen_logic) : list str :=
  osection (sl_variables s) (fun p => lit "@" ++ sl_name s ++ lit ".java_var" ++ [NL] ++ variable_pool_reconstruct p).
Definition sec_list_variables (s : screen_logic) : list str :=
  osection (sl_list_variables s) (fun p => lit "@" ++ sl_name s ++ lit ".java_list" ++ [NL] ++ list_variable_pool_reconstruct p).
Definition sec_more_blocks (s : screen_logic) : list str :=
  osection (sl_more_blocks s) (fun p => lit "@" ++ sl_name s ++ lit ".java_func" ++ [NL] ++ more_block_pool_reconstruct p).
Definition sec_components (s : screen_logic) : list str :=
  osection (sl_components s) (fun p => lit "@" ++ sl_name s ++ lit ".java_components" ++ [NL] ++ component_pool_reconstruct p).
Definition sec_events (s : screen_logic) : list str :=
  osection (sl_events s) (fun p => lit "@" ++ sl_name s ++ lit ".java_events" ++ [NL] ++ event_pool_reconstruct p).
(** logic.rs L216-236: the containers of a screen are one text *)
Definition container_text (name : str) (kv : str * block_container) : str :=
  lit "@" ++ name ++ lit ".java_" ++ fst kv ++ [NL] ++ block_container_reconstruct (snd kv) ++ [NL].
Definition sec_containers (s : screen_logic) : str :=
  fold_left (fun acc kv => acc ++ container_text (sl_name s) kv) (sl_block_containers s) [].
(** logic.rs L165-251; serialising the records never fails, so neither does this *)
Definition logic_sections (l : logic) : list str :=
  let ss := map snd l in
  flat_map sec_variables ss ++ flat_map sec_list_variables ss ++ flat_map sec_components ss ++
  flat_map sec_events ss ++ flat_map sec_more_blocks ss ++ map sec_containers ss.
Definition logic_reconstruct (l : logic) : str :=
  trim (fold_left (fun acc i => acc ++ [NL; NL] ++ trim i) (logic_sections l) []).
