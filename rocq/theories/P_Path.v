(** Property C49, continued: what the type and the name of a file are, by the text of its path
    (/repo/src/parser/mod.rs L373-404, [std::path::Path]). *)
From Verif Require Import Base Str M_Raw SpecInto IntoProofs ResFilesProofs P_Files P_Into SpecPath PathProofs.

(** a path is filed under [t] and [n] exactly if the file exists and lies in a folder in the folder of that type *)
Theorem C49_path ex p t n : wrapper_class ex (WPath p) t n <-> ex p = true /\ lies_in p (folder_of t) n.
Proof.
  rewrite lies_ends. split.
  - intros H. inversion H as [p' pre folder mid name t' Ex C M In0| |]; subst. split; [exact Ex|]. apply components_ends. exists pre, mid. split; [|exact M].
    cbn [In] in In0. destruct In0 as [X|[X|[X|[X|[]]]]]; injection X as <- <-; exact C.
  - intros (Ex & H). apply components_ends in H as (pre & mid & C & M). econstructor; [exact Ex|exact C|exact M|]. destruct t; cbn; auto.
Qed.
Print Assumptions C49_path.
(** so one path is refused exactly if the file does not exist or does not lie in such a folder *)
Theorem C49_refused ex p : (res_files_try_from ex [WPath p] = Err (FileDoesntExist p) <-> ex p = false) /\
  (res_files_try_from ex [WPath p] = Err (InvalidPath p) <-> ex p = true /\ forall t n, ~ lies_in p (folder_of t) n).
Proof.
  pose proof (C49_accepts_exactly_classified ex [WPath p]) as [A P].
  assert (K : (exists r, res_files_try_from ex [WPath p] = Ok r) <-> ex p = true /\ exists t n, lies_in p (folder_of t) n).
  { rewrite A. split.
    - intros F. apply Forall_inv in F as (t & n & F). apply C49_path in F as (E & F). eauto.
    - intros (E & t & n & F). constructor; [|constructor]. exists t, n. now apply C49_path. }
  assert (O : res_files_try_from ex [WPath p] = if ex p then match res_files_try_from ex [WPath p] with Err _ => Err (InvalidPath p) | x => x end else Err (FileDoesntExist p)).
  { unfold res_files_try_from. cbn [rf_collect rf_step]. destruct (ex p); cbn [negb bind]; [|reflexivity].
    destruct (parent_of (components p)) as [p1|]; cbn [ok_or bind]; [|reflexivity]. destruct (parent_of p1) as [p2|]; cbn [ok_or bind]; [|reflexivity].
    destruct (file_name_of p2) as [fo|]; cbn [ok_or bind]; [|reflexivity]. destruct (file_name_of (components p)) as [na|]; cbn [ok_or bind]; [|reflexivity]. destruct (type_of_folder fo); cbn [ok_or bind]; reflexivity. }
  revert O K P. destruct (res_files_try_from ex [WPath p]) as [r|e|]; intros O K P; [| |contradiction].
  - destruct (proj1 K (ex_intro _ r eq_refl)) as (E & t & n & F). split; (split; [discriminate|]).
    + congruence.
    + intros (_ & H). elim (H t n F).
  - destruct (ex p); injection O as ->.
    + split; [split; discriminate|]. split; [|reflexivity]. intros _. split; [reflexivity|]. intros t n F. destruct (proj2 K) as (r & X); [eauto|discriminate X].
    + split; [tauto|]. split; [discriminate|]. intros [X _]. discriminate X.
Qed.
Print Assumptions C49_refused.
Example C49_path_example :
  lies_in (lit "/a/images//./601/./x.png/.") (lit "images") (lit "x.png") /\ lies_in (lit "icons/../i.png") (lit "icons") (lit "i.png") /\
  (forall t n, ~ lies_in (lit "/a/images/x.png") (folder_of t) n) /\ (forall t n, ~ lies_in (lit "/a/images/601/..") (folder_of t) n).
Proof.
  split; [|split; [|split]].
  - split; [repeat split; try discriminate; cbn; intuition discriminate|]. split; [discriminate|]. split; [repeat split; try discriminate; cbn; intuition discriminate|]. split; [discriminate|].
    exists (lit "/a/"), (lit "//./"), (lit "601"), (lit "/./"), (lit "/."). split; [reflexivity|]. split; [right; exists (lit "/a"); reflexivity|].
    split; [exists (lit "//."); split; [apply SkSlash, SkDot, SkEnd|reflexivity]|]. split; [repeat split; try discriminate; cbn; intuition discriminate|]. split; [exists (lit "/."); split; [apply SkDot, SkEnd|reflexivity]|apply SkDot, SkEnd].
  - split; [repeat split; try discriminate; cbn; intuition discriminate|]. split; [discriminate|]. split; [repeat split; try discriminate; cbn; intuition discriminate|]. split; [discriminate|].
    exists [], (lit "/"), (lit ".."), (lit "/"), []. split; [reflexivity|]. split; [now left|]. split; [exists []; split; [constructor|reflexivity]|]. split; [repeat split; try discriminate; cbn; intuition discriminate|].
    split; [exists []; split; [constructor|reflexivity]|constructor].
  - apply (C49_refused (fun _ => true)). vm_compute. reflexivity.
  - apply (C49_refused (fun _ => true)). vm_compute. reflexivity.
Qed.
