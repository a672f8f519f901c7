(** Small specifications about components, events and screens, used in the statements of P_Screen.v. *)
From Verif Require Import Base M_Logic A_Block A_View A_Screen SpecBlock.

(** ** Components *)
(** all kinds in the order of their numbers 1 to 21 *)
Definition all_kinds (p : str) : list component_kind :=
  [CkIntent; CkSharedPreferences p; CkCalendar; CkVibrator; CkTimer; CkFirebaseDatabase p; CkDialog; CkMediaPlayer; CkSoundPool;
   CkObjectAnimator; CkGyroscope; CkFirebaseAuth; CkInterstitialAd; CkFirebaseStorage p; CkCamera; CkFilePicker p; CkRequestNetwork;
   CkTextToSpeech; CkSpeechToText; CkBluetoothConnect; CkLocationManager].
(** the numbers of the kinds with a parameter *)
Definition has_param (n : N) : Prop := n = 2 \/ n = 6 \/ n = 14 \/ n = 16.

(** ** Events *)
(** the name of the block container of an event *)
Definition container_name (e : aevent) (k : str) : Prop :=
  match ae_type e with
  | EtView id | EtComponent id _ => k = id ++ lit "_" ++ ae_name e
  | EtActivity => (ae_name e = lit "onCreate" /\ k = lit "onCreate_initializeLogic") \/
                  (ae_name e <> lit "onCreate" /\ k = ae_name e ++ lit "_" ++ ae_name e)
  end.
(** the event that a raw event stands for *)
Definition stands_for (r : event) (e : aevent) : Prop :=
  ae_name e = ev_name r /\
  ((ev_type r = 1 /\ ae_type e = EtView (ev_target_id r)) \/
   (ev_type r = 2 /\ ae_type e = EtComponent (ev_target_id r) (ev_target_type r)) \/
   (ev_type r = 3 /\ ae_type e = EtActivity)).

(** ** Screens *)
(** the blocks are the same after writing and reading *)
Definition survives (l : blocks) : Prop := exists c, blocks_into l = Ok c /\ blocks_try_from c = Ok l.
(** an [onCreate] event is the first one, and is there if its container is *)
Definition on_create_first (l : list aevent) : Prop :=
  (forall e, In e l -> ae_name e <> ON_CREATE /\ get_block_container_id e <> INITIALIZE) \/
  exists e r, l = e :: r /\ ae_name e = ON_CREATE /\ ae_type e = EtActivity /\ forall x, In x r -> ae_name x <> ON_CREATE.
(** the conditions under which the logic of a screen comes back *)
Definition good_more_block (kv : str * amore_block) : Prop :=
  am_name (snd kv) = fst kv /\ am_spec (snd kv) <> [] /\ Forall plain_item (am_spec (snd kv)) /\ survives (am_code (snd kv)).
(** an event whose container has another owner as well must be empty *)
Definition shared_empty (s : screen) : Prop :=
  forall a e b, sc_events s = a ++ e :: b ->
    (exists o, In o (a ++ b) /\ get_block_container_id o = get_block_container_id e) \/
    (exists kv, In kv (sc_more_blocks s) /\ more_block_container (fst kv) = get_block_container_id e) -> ae_code e = [].
Definition good_screen (s : screen) : Prop :=
  Forall good_more_block (sc_more_blocks s) /\ Forall (fun e => survives (ae_code e)) (sc_events s) /\
  shared_empty s /\ on_create_first (sc_events s).
(** the parts that come from the logic *)
Definition same_logic (s s' : screen) : Prop :=
  sc_variables s' = sc_variables s /\ sc_list_variables s' = sc_list_variables s /\ sc_more_blocks s' = sc_more_blocks s /\
  sc_components s' = sc_components s /\ sc_events s' = sc_events s.


(** ** Names *)
Definition lower : str := lit "abcdefghijklmnopqrstuvwxyz".
Definition upper : str := lit "ABCDEFGHIJKLMNOPQRSTUVWXYZ".
(** the capital of a small letter; other chars stay *)
Definition capital (c : char) : char :=
  match find (fun p => c =? fst p) (combine lower upper) with Some p => snd p | None => c end.
Definition capitalised (w : str) : str := match w with [] => [] | c :: r => capital c :: r end.
(** the rest of a name that Sketchware allows: no capital, and a small letter after every underscore *)
Inductive allowed_rest : str -> Prop :=
| al_end : allowed_rest []
| al_char c s : c <> 95 -> ~ In c upper -> allowed_rest s -> allowed_rest (c :: s)
| al_word c s : In c lower -> allowed_rest s -> allowed_rest (95 :: c :: s).
Definition allowed_name (s : str) : Prop := exists c r, s = c :: r /\ In c lower /\ allowed_rest r.
