(** * Property C66: reading and writing whole files. *)
From Verif Require Import Base Types UtilsModel FileModel FileSpec FileProofs.
Open Scope nat_scope.

(** C66.  A file is read exactly when it can be opened, all of it can be read and it has at most
    20000000 bytes; the result is its text up to the first NUL byte, never a part of it. *)
Theorem C66_read_exact : forall r bytes s, holds r bytes ->
  (sr_file_to_string r = Some s <-> reads_all r bytes /\ fits bytes /\ c_text bytes s).
Proof. exact read_exact. Qed.
Theorem C66_read_total : forall r bytes, reads_all r bytes -> fits bytes -> exists s, sr_file_to_string r = Some s /\ c_text bytes s.
Proof. exact read_total. Qed.
Theorem C66_text_unique : forall b s t, c_text b s -> c_text b t -> s = t.
Proof. exact c_text_unique. Qed.
Definition C66_reading : reading := mk_reading true (Some 3%N) (Some (L "abc")).
Example C66_case_read : holds C66_reading (L "abc") /\ reads_all C66_reading (L "abc") /\ fits (L "abc") /\
  sr_file_to_string C66_reading = Some (L "abc") /\
  sr_file_to_string (mk_reading true (Some 3%N) (Some ["a"%char; nul; "c"%char])) = Some (L "a") /\
  sr_file_to_string (mk_reading true (Some 3%N) (Some (L "ab"))) = None.
Proof.
  repeat split; try reflexivity; [|vm_compute; discriminate]. intros b H. injection H as <-. now exists [].
Qed.

(** Writing reports success exactly when every call succeeded and every byte was taken; then the file
    holds the text and nothing else. *)
Theorem C66_write_true : forall w old contents, snd (sr_string_to_file w old contents) = true <->
  wr_open w = true /\ wr_count w = Some (length contents) /\ wr_close w = true.
Proof. exact write_true. Qed.
Theorem C66_write_final : forall w old contents, snd (sr_string_to_file w old contents) = true ->
  final (fst (sr_string_to_file w old contents)) = Some contents.
Proof. exact write_final. Qed.
(** Wherever the call is interrupted, the file is as it was before or holds a leading part of the new text. *)
Theorem C66_write_states : forall w old contents st, In st (fst (sr_string_to_file w old contents)) ->
  st = old \/ exists part, st = Some part /\ leading part contents.
Proof. exact write_states. Qed.
(** When the file cannot be opened nothing changes; once it is opened the old text is gone. *)
Theorem C66_write_unopened : forall w old contents, wr_open w = false -> sr_string_to_file w old contents = ([old], false).
Proof. exact write_unopened. Qed.
Theorem C66_write_opened : forall w old contents, wr_open w = true -> exists part,
  final (fst (sr_string_to_file w old contents)) = Some part /\
  part = firstn (match wr_count w with Some n => n | None => 0 end) contents /\ In (Some []) (fst (sr_string_to_file w old contents)).
Proof. exact write_opened. Qed.
(** What was written can be read back, for texts of at most 20000000 bytes. *)
Theorem C66_write_read : forall w old contents r, snd (sr_string_to_file w old contents) = true -> ~ In nul contents -> fits contents ->
  (forall bytes, final (fst (sr_string_to_file w old contents)) = Some bytes -> reads_all r bytes) ->
  sr_file_to_string r = Some contents.
Proof. exact write_read. Qed.
Definition C66_writing : writing := mk_writing true (Some 3) true.
Example C66_case_write : sr_string_to_file C66_writing (Some (L "old")) (L "abc") = ([Some (L "old"); Some []; Some (L "abc")], true) /\
  sr_string_to_file (mk_writing true (Some 1) true) (Some (L "old")) (L "abc") = ([Some (L "old"); Some []; Some (L "a")], false) /\
  sr_string_to_file (mk_writing true (Some 3) false) None (L "abc") = ([None; Some []; Some (L "abc")], false).
Proof. repeat split. Qed.
Example C66_case_write_read : snd (sr_string_to_file C66_writing None (L "abc")) = true /\ ~ In nul (L "abc") /\ fits (L "abc") /\
  (forall bytes, final (fst (sr_string_to_file C66_writing None (L "abc"))) = Some bytes -> reads_all C66_reading bytes).
Proof.
  split; [reflexivity|]. split; [intros [H|[H|[H|[]]]]; discriminate|]. split; [vm_compute; discriminate|].
  intros bytes H. injection H as <-. repeat split.
Qed.
(** "The file keeps its text when writing fails" is false, and so is "at every moment it holds the old
    or the new text". *)
Theorem C66_failed_write_refuted : exists w old contents, snd (sr_string_to_file w (Some old) contents) = false /\
  final (fst (sr_string_to_file w (Some old) contents)) <> Some old /\ final (fst (sr_string_to_file w (Some old) contents)) <> Some contents.
Proof. exists (mk_writing true (Some 1) true), (L "old"), (L "abc"). repeat split; discriminate. Qed.
Theorem C66_atomic_refuted : exists w old contents st, snd (sr_string_to_file w (Some old) contents) = true /\
  In st (fst (sr_string_to_file w (Some old) contents)) /\ st <> Some old /\ st <> Some contents.
Proof. exists C66_writing, (L "old"), (L "abc"), (Some []). repeat split; [cbn; auto|discriminate|discriminate]. Qed.
(** "What was written can be read back" is false of longer texts. *)
Theorem C66_limit_refuted : exists w contents, snd (sr_string_to_file w None contents) = true /\ ~ In nul contents /\
  forall r, holds r contents -> sr_file_to_string r = None.
Proof.
  pose (contents := repeat "a"%char (N.to_nat 20000001)). exists (mk_writing true (Some (length contents)) true), contents. split; [|split].
  - apply write_true. auto.
  - intros H. apply repeat_spec in H. discriminate.
  - intros r H. destruct (sr_file_to_string r) as [s|] eqn:E; [|reflexivity]. exfalso.
    apply (read_exact r contents s H) in E. destruct E as (_ & F & _). unfold fits in F. subst contents. rewrite repeat_length, N2Nat.id in F.
    now apply F.
Qed.
(** A special file whose size is 0 (/proc) is read as empty, whatever it would deliver, and of a file that
    grows between the two calls only the first part is read. *)
Theorem C66_growing_refuted : exists r before after s, rd_open r = true /\ rd_size r = Some (N.of_nat (length before)) /\
  leading before after /\ before <> after /\ rd_read r = Some (firstn (length before) after) /\ sr_file_to_string r = Some s /\ ~ c_text after s.
Proof.
  exists (mk_reading true (Some 0%N) (Some [])), [], (L "x"), []. repeat split; try discriminate; [now exists (L "x")|].
  intros [_ [H|[r H]]]; discriminate.
Qed.
Print Assumptions C66_read_exact.
Print Assumptions C66_read_total.
Print Assumptions C66_text_unique.
Print Assumptions C66_write_true.
Print Assumptions C66_write_final.
Print Assumptions C66_write_states.
Print Assumptions C66_write_unopened.
Print Assumptions C66_write_opened.
Print Assumptions C66_write_read.
Print Assumptions C66_failed_write_refuted.
Print Assumptions C66_atomic_refuted.
Print Assumptions C66_limit_refuted.
Print Assumptions C66_growing_refuted.
