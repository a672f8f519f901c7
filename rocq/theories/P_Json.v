(** Properties C72 (meaning of record lines) and C73 (JSON texts). *)
From Coq Require Import Lia.
From Verif Require Import Base Spec Str Dec Flt Json JsonProofs Recs M_Color M_File M_Library M_Resource M_Logic M_View M_Date M_Project
  FileProofs LogicProofs ProjectProofs ViewProofs SpecReading ProjectReadingProofs SpecJson JsonGrammar SpecRecord RecordProofs SpecDate DateTextProofs.
Local Open Scope N_scope.

(** C72. A line is read as a record exactly when it is a JSON text whose fields have the values of the record. *)
Lemma from_str_reads {A} (d : json -> option A) R {r : Reads d R} s x : from_str d s = Some x <-> exists j, json_text j s /\ R j x.
Proof.
  unfold from_str. split.
  - intros H. inv_obind H. exists j. split; [now apply parse_json_text|now apply reads].
  - intros (j & T & H). apply parse_json_text in T. rewrite T. cbn [obind]. now apply reads.
Qed.
Lemma ok_or_some {E A} (e : E) (o : option A) a : ok_or e o = Ok a <-> o = Some a.
Proof. destruct o; cbn; split; congruence. Qed.
Theorem C72_file_item s x : file_item_parse s = Some x <-> exists j, json_text j s /\ file_item_reads j x.
Proof. apply from_str_reads. exact _. Qed.
Print Assumptions C72_file_item.
Theorem C72_library_item s x : library_item_parse s = Some x <-> exists j, json_text j s /\ library_item_reads j x.
Proof. apply from_str_reads. exact _. Qed.
Print Assumptions C72_library_item.
Theorem C72_resource_item s x : resource_item_parse s = Some x <-> exists j, json_text j s /\ resource_item_reads j x.
Proof. apply from_str_reads. exact _. Qed.
Print Assumptions C72_resource_item.
Theorem C72_component s x : component_parse s = Ok x <-> exists j, json_text j s /\ component_reads j x.
Proof. unfold component_parse. rewrite ok_or_some. apply from_str_reads. exact _. Qed.
Print Assumptions C72_component.
Theorem C72_event s x : event_parse s = Ok x <-> exists j, json_text j s /\ event_reads j x.
Proof. unfold event_parse. rewrite ok_or_some. apply from_str_reads. exact _. Qed.
Print Assumptions C72_event.
Theorem C72_block s x : block_parse s = Ok x <-> exists j, json_text j s /\ block_reads j x.
Proof. unfold block_parse. rewrite ok_or_some. apply from_str_reads. exact _. Qed.
Print Assumptions C72_block.
Theorem C72_view s x : view_line_parse s = Some x <-> exists j, json_text j s /\ view_reads j x.
Proof. apply from_str_reads. exact _. Qed.
Print Assumptions C72_view.

Theorem C72_project s p : project_parse s = Ok p <-> exists kvs, json_text (JObj kvs) s /\ project_reads kvs p.
Proof.
  rewrite project_exact. split; intros (kvs & T & P); exists kvs; (split; [now apply parse_json_text|]).
  - destruct P as [P1 P2 P3 P4 P5 P6 (t & P7 & P7') P8 P9 P10 P11 P12 P13 P14 P15].
    constructor; try (eapply field_reads; [exact _|eassumption]); [|assumption]. exists t. split; [eapply field_reads; [exact _|eassumption]|now apply date_de_ok].
  - destruct P as [P1 P2 P3 P4 P5 P6 (t & P7 & P7') P8 P9 P10 P11 P12 P13 P14 P15].
    constructor; try (eapply field_reads; [exact _|eassumption]); [|assumption]. exists t. split; [eapply field_reads; [exact _|eassumption]|now apply date_de_ok].
Qed.
Print Assumptions C72_project.
(** a component line with an escape, a number written with white space, fields out of order and an unknown field; the same
    values by position; a repeated field, a fraction and a missing field are errors *)
Example C72_example :
  let c := {| co_id := lit "a/b"; co_param1 := []; co_param2 := lit "x"; co_param3 := []; co_type := 7 |} in
  component_parse (lit "{ ""type"" : 7, ""componentId"":""a\u002fb"",""param1"":"""",""zzz"":[{}],""param3"":"""",""param2"":""x""}") = Ok c /\
  component_parse (lit "[""a/b"","""",""x"","""",7]") = Ok c /\
  component_parse (lit "{""type"":7,""type"":7,""componentId"":""a"",""param1"":"""",""param3"":"""",""param2"":""x""}") = Err tt /\
  component_parse (lit "[""a/b"","""",""x"","""",7.0]") = Err tt /\ component_parse (lit "[""a/b"","""",""x"",""""]") = Err tt /\
  component_parse (lit "[""a/b"","""",""x"","""",256]") = Err tt.
Proof. vm_compute. auto 10. Qed.
Example C72_example_values :
  d_color (JNum {| jneg := true; jint := lit "16777216"; jfrac := Some (lit "9"); jexp := None |}) = Some (color_of_u32 4278190080) /\
  colour (JNum {| jneg := true; jint := lit "1"; jfrac := None; jexp := None |}) {| cval := 4294967295 |} /\
  flag (JNum {| jneg := false; jint := lit "2"; jfrac := None; jexp := None |}) true /\
  ~ (exists b, truth (JStr (Some (lit "True"))) b).
Proof.
  split; [vm_compute; reflexivity|]. split; [apply reads_color; vm_compute; reflexivity|]. split; [apply reads_flag; vm_compute; reflexivity|].
  intros [b H]. apply reads_truth in H. discriminate H.
Qed.

(** C73. The reader accepts exactly the JSON grammar, which is unambiguous; what is written is a JSON text. *)
Theorem C73_text s j : parse_json s = Some j <-> json_text j s.
Proof. apply parse_json_text. Qed.
Print Assumptions C73_text.
Theorem C73_unique s j j' : json_text j s -> json_text j' s -> j = j'.
Proof. intros H H'. apply parse_json_text in H, H'. congruence. Qed.
Print Assumptions C73_unique.
Lemma written j : wf_json j = true -> json_text j (print_json j) /\ Forall (fun c => 32 <= c) (print_json j).
Proof.
  intros W. split; [now apply parse_json_text, parse_print|]. apply print_json_printable in W. unfold printable in W.
  apply Forall_forall. rewrite forallb_forall in W. intros c Hc. specialize (W c Hc). now apply N.leb_le in W.
Qed.
(** the written line of every record is a JSON text without control characters *)
Definition line_ok (j : json) (s : str) : Prop := json_text j s /\ Forall (fun c => 32 <= c) s.
Theorem C73_lines :
  (forall x, line_ok (e_file_item x) (file_item_reconstruct x)) /\ (forall x, line_ok (e_library_item x) (library_item_reconstruct x)) /\
  (forall x, line_ok (e_resource_item x) (resource_item_reconstruct x)) /\ (forall x, line_ok (e_component x) (component_reconstruct x)) /\
  (forall x, line_ok (e_event x) (event_reconstruct x)) /\ (forall x, line_ok (e_block x) (block_reconstruct x)) /\
  (forall x, Forall (fun f => canonical F32 f = true) (view_f32 x) -> line_ok (e_view x) (view_line_reconstruct x)).
Proof.
  repeat split; intros; apply written;
    auto using e_file_item_wf, e_library_item_wf, e_resource_item_wf, e_component_wf, e_event_wf, e_block_wf, e_view_wf.
Qed.
Print Assumptions C73_lines.
Example C73_example :
  json_text (JArr [JNum {| jneg := true; jint := lit "1"; jfrac := None; jexp := Some (false, lit "5") |}; JStr (Some [128512])])
    (lit " [ -1E+5 ,""\ud83d\uDE00""]") /\
  (forall j, ~ json_text j (lit "[1,]")) /\ (forall j, ~ json_text j (lit "01")) /\ (forall j, ~ json_text j (lit "[1] 2")).
Proof. split; [apply C73_text; vm_compute; reflexivity|]. repeat split; intros j H; apply C73_text in H; vm_compute in H; discriminate H. Qed.
