(** Property C92: the strings of a project stay strings — sequences of Unicode scalar values — through reading, loading,
    converting and writing, so that what is written can be encrypted, decrypted and read as UTF-8 again
    (/repo/src/parser/mod.rs L84-240, /repo/src/parser/raw.rs L20-96, /repo/src/api/mod.rs L303-450, L487-675). In Rust
    the type [String] guarantees this; in the model a string is any list of numbers, and these theorems show that the
    model does not leave the type. *)
From Coq Require Import Lia.
From Verif Require Import Base Str Flt Json Utf8 Crypto M_Color M_Date M_Raw M_Project M_File M_Library M_Resource M_View M_Logic M_Parsed A_Block A_View A_Screen A_Project
  Spec SpecSave SpecStrings StringsProofs StringsApiProofs StringsReadProofs StringsLoadProofs P_Crypto P_ApiProject P_Save.

(** Reading: all strings of the records that are read are texts if the files are. *)
Theorem C92_read mv ex r v : Forall string_ok (raw_texts r) -> parse_from mv ex r = Ok v -> Forall string_ok (parsed_texts v).
Proof. exact (ok_parse mv ex r v). Qed.
Print Assumptions C92_read.
(** Converting to the API *)
Theorem C92_try_from rnd v p : Forall string_ok (parsed_texts v) -> project_try_from rnd v = Ok p -> Forall string_ok (sw_texts p).
Proof. exact (ok_try_from rnd v p). Qed.
Print Assumptions C92_try_from.
(** Converting back *)
Theorem C92_into p v : Forall string_ok (sw_texts p) -> project_into p = Ok v -> Forall string_ok (parsed_texts v).
Proof. exact (ok_into p v). Qed.
Print Assumptions C92_into.
(** Writing, in whatever order the maps are written *)
Theorem C92_written v r : Forall string_ok (parsed_texts v) -> into_raw v r -> Forall string_ok (raw_texts r).
Proof. exact (ok_into_raw v r). Qed.
Print Assumptions C92_written.
(** Whatever project of the API is written, its six files can be encrypted, and [from_encrypted] gives back exactly the
    raw project. No condition is left on the project but that its strings are strings. *)
Theorem C92_encrypted p r : Forall string_ok (sw_texts p) -> project_into_raw p r ->
  let on_disk t := encrypt_sw (utf8_encode t) in
  match rp_resource_files r with
  | Some files => from_encrypted (on_disk (rp_project r)) (on_disk (rp_file r)) (on_disk (rp_library r)) (on_disk (rp_resource r))
                    (on_disk (rp_view r)) (on_disk (rp_logic r)) files = Ok r
  | None => from_encrypted_wo_res (on_disk (rp_project r)) (on_disk (rp_file r)) (on_disk (rp_library r)) (on_disk (rp_resource r))
              (on_disk (rp_view r)) (on_disk (rp_logic r)) = Ok r
  end.
Proof.
  intros S (q & H & W). cbv zeta. pose proof (C92_written q r (C92_into p q S H) W) as T. unfold raw_texts in T. apply Forall_app in T as [T _].
  destruct r as [a b c d e f [g|]]; cbn [rp_project rp_file rp_library rp_resource rp_view rp_logic rp_resource_files] in *.
  - exact (proj1 (C04_encrypted_project _ _ _ _ _ _ g T)).
  - exact (proj2 (C04_encrypted_project _ _ _ _ _ _ [] T)).
Qed.
Print Assumptions C92_encrypted.
(** Whatever is loaded from encrypted files has only texts in it, whatever the bytes of the files were. *)
Theorem C92_loaded mv ex rnd project file library resource view logic r p :
  from_encrypted_wo_res project file library resource view logic = Ok r -> loaded mv ex rnd r p -> Forall string_ok (sw_texts p).
Proof.
  intros E (v & P & K). apply C04_from_encrypted_wo_res in E as (E & N0). apply (C92_try_from rnd v p); [|exact K]. apply (C92_read mv ex r v); [|exact P].
  unfold raw_texts. rewrite N0. repeat (apply Forall_cons; [refine (proj1 (E _ _ _)); cbn [In]; tauto|]). constructor.
Qed.
Print Assumptions C92_loaded.
Theorem C92_loaded_files mv ex rnd project file library resource view logic files r p : Forall string_ok (flat_map wrapper_texts files) ->
  from_encrypted project file library resource view logic files = Ok r -> loaded mv ex rnd r p -> Forall string_ok (sw_texts p).
Proof.
  intros F E (v & P & K). apply C04_from_encrypted in E as (E & N0). apply (C92_try_from rnd v p); [|exact K]. apply (C92_read mv ex r v); [|exact P].
  unfold raw_texts. rewrite N0. apply Forall_app. split; [|exact F]. repeat (apply Forall_cons; [refine (proj1 (E _ _ _)); cbn [In]; tauto|]). constructor.
Qed.
Print Assumptions C92_loaded_files.

(** The project of C85 with a name outside ASCII: its strings are texts, and it can be written. Were there a surrogate in
    the name, the encrypted file could not be read again. *)
Definition valid (s : str) : bool := forallb (fun c => (c <? 0xD800) || ((0xE000 <=? c) && (c <? 0x110000)))%bool s.
Lemma valid_ok l : forallb valid l = true -> Forall string_ok l.
Proof.
  intros H. apply Forall_forall. intros s I. rewrite forallb_forall in H. specialize (H s I). unfold valid in H. rewrite forallb_forall in H. apply Forall_forall. intros c J. specialize (H c J).
  destruct (N.ltb_spec c 0xD800), (N.leb_spec 0xE000 c), (N.ltb_spec c 0x110000); cbn in H; try discriminate H; lia.
Qed.
Definition project92 (name : str) : sw_project :=
  let p := project85 [] in let m := sp_metadata p in
  {| sp_custom_icon := sp_custom_icon p;
     sp_metadata := {| md_local_id := md_local_id m; md_name := name; md_workspace_name := md_workspace_name m; md_package_name := md_package_name m; md_version_name := md_version_name m;
                       md_version_code := md_version_code m; md_time_created := md_time_created m; md_sketchware_version := md_sketchware_version m |};
     sp_colors := sp_colors p; sp_screens := sp_screens p; sp_custom_views := []; sp_libraries := sp_libraries p;
     sp_resources := sp_resources p; sp_automatic := false |}.
Example C92_example :
  Forall string_ok (sw_texts (project92 [0xE9; 0x20AC; 0x1F600])) /\ ~ Forall string_ok (sw_texts (project92 [0xD800])) /\
  (20 <= length (sw_texts (project92 [])))%nat /\ In (lit "my_page") (sw_texts (project92 [])) /\
  (exists q, project_into (project92 [0xE9; 0x20AC; 0x1F600]) = Ok q /\ forallb valid (parsed_texts q) = true) /\
  from_encrypted_wo_res (encrypt_sw (utf8_encode [0xD800])) [] [] [] [] [] = Err FromUtf8Error.
Proof.
  split; [apply valid_ok; vm_compute; reflexivity|]. split.
  { intros H. rewrite Forall_forall in H. assert (K : string_ok [0xD800]) by (apply H; cbn; tauto). inversion K as [|? ? C _]. lia. }
  split; [vm_compute; lia|]. split; [vm_compute; tauto|]. split; [eexists; split; [vm_compute; reflexivity|vm_compute; reflexivity]|]. vm_compute. reflexivity.
Qed.
