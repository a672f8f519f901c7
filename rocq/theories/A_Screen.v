(** Model of /repo/src/api/component.rs, /repo/src/api/screen.rs and of [to_screen_logic] in /repo/src/api/mod.rs. *)
From Verif Require Import Base M_File M_View M_Logic A_Block A_View.

(** ** Components *)
(** component.rs L6-36 *)
Inductive component_kind :=
| CkIntent | CkSharedPreferences (path : str) | CkCalendar | CkVibrator | CkTimer | CkFirebaseDatabase (path : str)
| CkDialog | CkMediaPlayer | CkSoundPool | CkObjectAnimator | CkGyroscope | CkFirebaseAuth | CkInterstitialAd
| CkFirebaseStorage (path : str) | CkCamera | CkFilePicker (mime_type : str) | CkRequestNetwork | CkTextToSpeech
| CkSpeechToText | CkBluetoothConnect | CkLocationManager.
(** component.rs L98-103 *)
Record unknown_component := { uc_type : N; uc_id : str }.
(** component.rs L40-68 *)
Definition from_parser_component (c : component) : res unknown_component component_kind :=
  match co_type c with
  | 1 => Ok CkIntent
  | 2 => Ok (CkSharedPreferences (co_param1 c))
  | 3 => Ok CkCalendar
  | 4 => Ok CkVibrator
  | 5 => Ok CkTimer
  | 6 => Ok (CkFirebaseDatabase (co_param1 c))
  | 7 => Ok CkDialog
  | 8 => Ok CkMediaPlayer
  | 9 => Ok CkSoundPool
  | 10 => Ok CkObjectAnimator
  | 11 => Ok CkGyroscope
  | 12 => Ok CkFirebaseAuth
  | 13 => Ok CkInterstitialAd
  | 14 => Ok (CkFirebaseStorage (co_param1 c))
  | 15 => Ok CkCamera
  | 16 => Ok (CkFilePicker (co_param1 c))
  | 17 => Ok CkRequestNetwork
  | 18 => Ok CkTextToSpeech
  | 19 => Ok CkSpeechToText
  | 20 => Ok CkBluetoothConnect
  | 21 => Ok CkLocationManager
  | _ => Err {| uc_type := co_type c; uc_id := co_id c |}
  end.
(** component.rs L71-95 *)
Definition into_parser_component (k : component_kind) (id : str) : component :=
  match k with
  | CkIntent => component_new_empty id 1
  | CkSharedPreferences path => component_new_1param id path 2
  | CkCalendar => component_new_empty id 3
  | CkVibrator => component_new_empty id 4
  | CkTimer => component_new_empty id 5
  | CkFirebaseDatabase path => component_new_1param id path 6
  | CkDialog => component_new_empty id 7
  | CkMediaPlayer => component_new_empty id 8
  | CkSoundPool => component_new_empty id 9
  | CkObjectAnimator => component_new_empty id 10
  | CkGyroscope => component_new_empty id 11
  | CkFirebaseAuth => component_new_empty id 12
  | CkInterstitialAd => component_new_empty id 13
  | CkFirebaseStorage path => component_new_1param id path 14
  | CkCamera => component_new_empty id 15
  | CkFilePicker mime_type => component_new_1param id mime_type 16
  | CkRequestNetwork => component_new_empty id 17
  | CkTextToSpeech => component_new_empty id 18
  | CkSpeechToText => component_new_empty id 19
  | CkBluetoothConnect => component_new_empty id 20
  | CkLocationManager => component_new_empty id 21
  end.

(** ** Events *)
(** screen.rs L125-135 *)
Inductive event_type := EtView (id : str) | EtComponent (id : str) (component_type : N) | EtActivity.
(** screen.rs L74-79 *)
Record aevent := { ae_name : str; ae_type : event_type; ae_code : blocks }.
(** screen.rs L174-179 *)
Record unknown_event := { ue_name : str; ue_type : N }.
Definition ON_CREATE : str := lit "onCreate".
(** screen.rs L83-92; it does not depend on the code *)
Definition container_id (name : str) (t : event_type) : str :=
  match t with
  | EtView id => id ++ lit "_" ++ name
  | EtComponent id _ => id ++ lit "_" ++ name
  | EtActivity => if str_eqb name ON_CREATE then name ++ lit "_initializeLogic" else name ++ lit "_" ++ name
  end.
Definition get_block_container_id (e : aevent) : str := container_id (ae_name e) (ae_type e).
(** screen.rs L138-154 *)
Definition event_type_from (e : event) : res unknown_event event_type :=
  match ev_type e with
  | 1 => Ok (EtView (ev_target_id e))
  | 2 => Ok (EtComponent (ev_target_id e) (ev_target_type e))
  | 3 => Ok EtActivity
  | _ => Err {| ue_name := ev_name e; ue_type := ev_type e |}
  end.
(** screen.rs L156-171 *)
Definition apply_event_type (t : event_type) (e : event) : event :=
  match t with
  | EtView id => {| ev_name := ev_name e; ev_type := 1; ev_target_id := id; ev_target_type := ev_target_type e |}
  | EtComponent id ct => {| ev_name := ev_name e; ev_type := 2; ev_target_id := id; ev_target_type := ct |}
  | EtActivity => {| ev_name := ev_name e; ev_type := 3; ev_target_id := ev_target_id e; ev_target_type := ev_target_type e |}
  end.
(** screen.rs L96-107 *)
Definition into_parser_event (e : aevent) : event * blocks :=
  (apply_event_type (ae_type e) {| ev_name := ae_name e; ev_type := 0; ev_target_id := []; ev_target_type := 0 |}, ae_code e).
(** screen.rs L116-122; [Blocks::default()] is empty *)
Definition event_try_from (e : event) : res unknown_event aevent :=
  let* t := event_type_from e in Ok {| ae_name := ev_name e; ae_type := t; ae_code := [] |}.

(** ** Screens *)
(** screen.rs L56-61 *)
Record amore_block := { am_name : str; am_spec : list (spec_item ablock); am_code : blocks }.
(** screen.rs L68-70 *)
Definition into_parser_more_block (m : amore_block) : more_block * blocks :=
  ({| mb_id := am_name m; mb_spec := content_to_string (am_spec m) |}, am_code m).
(** screen.rs L14-53; [Variable]s and [ListVariable]s are those of the parser *)
Record screen := {
  sc_layout_name : str; sc_java_name : str; sc_layout : list aview; sc_variables : smap variable;
  sc_list_variables : smap list_variable; sc_more_blocks : smap amore_block; sc_components : smap component_kind;
  sc_events : list aevent; sc_fab : option aview;
  sc_fullscreen : bool; sc_toolbar : bool; sc_drawer : bool; sc_fab_enabled : bool;
  sc_orientation : orientation; sc_theme : theme; sc_keyboard : keyboard_setting
}.
(** screen.rs L285-307 *)
Inductive screen_error :=
| SeMoreBlockSpec (moreblock_id : str) (source : content_error)
| SeBlocks (container_name : str) (source : conv_error)
| SeUnknownEvent (e : unknown_event)
| SeUnknownComponent (e : unknown_component)
| SeLayout (e : layout_error).
Definition INITIALIZE : str := lit "onCreate_initializeLogic".
(** the event inserted at screen.rs L201-206 *)
Definition on_create_event : event :=
  {| ev_name := ON_CREATE; ev_type := 3; ev_target_id := ON_CREATE; ev_target_type := 0 |}.
(** screen.rs L197-208: the event pool after the insertion *)
Definition with_on_create (l : screen_logic) : option (list event) :=
  if smem INITIALIZE (sl_block_containers l)
  then Some (on_create_event :: match sl_events l with Some es => es | None => [] end)
  else sl_events l.
Definition or_empty {A} (o : option (list A)) : list A := match o with Some l => l | None => [] end.
(** [map.remove(k).unwrap_or_default()]: the container and the map without it *)
Definition take_container (k : str) (bc : smap block_container) : block_container * smap block_container :=
  (or_empty (sget k bc), sremove k bc).
(** the key built at screen.rs L232-237 and mod.rs L593 *)
Definition more_block_container (id : str) : str := id ++ lit "_moreBlock".
(** screen.rs L221-241: the more blocks with what is left of the containers; [collect] stops at the first error *)
Fixpoint take_more_blocks (l : smap more_block) (bc : smap block_container)
  : res screen_error (smap amore_block * smap block_container) :=
  match l with
  | [] => Ok ([], bc)
  | (id, mb) :: r =>
    let* spec := map_err (SeMoreBlockSpec id) (parse_wo_params (mb_spec mb)) in
    let (c, bc') := take_container (more_block_container id) bc in
    let* code := map_err (SeBlocks (more_block_container id)) (blocks_try_from c) in
    let* (ms, bc'') := take_more_blocks r bc' in
    Ok ((id, {| am_name := id; am_spec := spec; am_code := code |}) :: ms, bc'')
  end.
(** screen.rs L243-251 *)
Fixpoint take_components (l : list component) : res unknown_component (list (str * component_kind)) :=
  match l with
  | [] => Ok []
  | c :: r => let* k := from_parser_component c in let* ks := take_components r in Ok ((co_id c, k) :: ks)
  end.
(** screen.rs L253-271 *)
Fixpoint take_events (l : list event) (bc : smap block_container) : res screen_error (list aevent) :=
  match l with
  | [] => Ok []
  | e :: r =>
    let* ev := map_err SeUnknownEvent (event_try_from e) in
    let (c, bc') := take_container (get_block_container_id ev) bc in
    let* code := map_err (SeBlocks (get_block_container_id ev)) (blocks_try_from c) in
    let* es := take_events r bc' in
    Ok ({| ae_name := ae_name ev; ae_type := ae_type ev; ae_code := code |} :: es)
  end.
(** screen.rs L182-282; the fields are evaluated in this order *)
Definition screen_from_parsed (layout_name logic_name : str) (fe : file_item) (ve : layout) (le : screen_logic)
    (fab : option aview) : res screen_error screen :=
  let events := with_on_create le in
  let* views := map_err SeLayout (parse_raw_layout ve) in
  let* (ms, bc) := take_more_blocks (or_empty (sl_more_blocks le)) (sl_block_containers le) in
  let* cs := map_err SeUnknownComponent (take_components (or_empty (sl_components le))) in
  let* es := take_events (or_empty events) bc in
  Ok {| sc_layout_name := layout_name; sc_java_name := logic_name; sc_layout := views;
        sc_variables := or_empty (sl_variables le); sc_list_variables := or_empty (sl_list_variables le);
        sc_more_blocks := scollect ms; sc_components := scollect cs; sc_events := es; sc_fab := fab;
        sc_fullscreen := ao_fullscreen (fi_options fe); sc_toolbar := ao_toolbar (fi_options fe);
        sc_drawer := ao_drawer (fi_options fe); sc_fab_enabled := ao_fab (fi_options fe);
        sc_orientation := fi_orientation fe; sc_theme := fi_theme fe; sc_keyboard := fi_keyboard fe |}.

(** ** Back to the raw logic *)
(** mod.rs L567-583: the raw events and the containers so far; the event is dropped if it is called [onCreate],
    its container is not *)
Fixpoint put_events (l : list aevent) (bc : smap block_container) : res unit (list event * smap block_container) :=
  match l with
  | [] => Ok ([], bc)
  | e :: r =>
    let (pe, code) := into_parser_event e in
    let* c := blocks_into code in
    let* (es, bc') := put_events r (sinsert (get_block_container_id e) c bc) in
    Ok (if str_eqb (ev_name pe) ON_CREATE then es else pe :: es, bc')
  end.
(** mod.rs L586-597 *)
Fixpoint put_more_blocks (l : smap amore_block) (bc : smap block_container)
  : res unit (smap more_block * smap block_container) :=
  match l with
  | [] => Ok ([], bc)
  | (id, m) :: r =>
    let (pm, code) := into_parser_more_block m in
    let* c := blocks_into code in
    let* (ms, bc') := put_more_blocks r (sinsert (more_block_container id) c bc) in
    Ok ((id, pm) :: ms, bc')
  end.
(** mod.rs L556-611; panics where [Blocks::into] does *)
Definition to_screen_logic (logic_name : str) (variables : smap variable) (list_variables : smap list_variable)
    (components : smap component_kind) (more_blocks : smap amore_block) (events : list aevent) : res unit screen_logic :=
  let* (es, bc) := put_events events [] in
  let* (ms, bc') := put_more_blocks more_blocks bc in
  Ok {| sl_name := logic_name; sl_block_containers := bc'; sl_variables := Some variables;
        sl_list_variables := Some list_variables;
        sl_components := Some (map (fun kv => into_parser_component (snd kv) (fst kv)) components);
        sl_events := Some es; sl_more_blocks := Some (scollect ms) |}.
(** mod.rs L632-639 *)
Definition screen_logic_of (s : screen) : res unit screen_logic :=
  to_screen_logic (sc_java_name s) (sc_variables s) (sc_list_variables s) (sc_components s) (sc_more_blocks s) (sc_events s).
