(** * Property C92: reports made from problem directories, sent as JSON. *)
From Verif Require Import Base Types UtilsModel UtilsProofs JsonSpec JsonTypesModel JsonTypesSpec TextModel RpmModel RpmSpec RpmProofs4 SystemModel ReportModel ReportSpec ReportProofs4 FileModel
  AbrtModel AbrtSpec AbrtProofs AbrtProofs2 JsonKeepSpec ResendSpec P_Abrt DirSendSpec DirSendProofs DirSendProofs2 DirSendProofs3.
Open Scope Z_scope.

(** C92.  When the files of a problem directory are made of bytes that JSON can carry, the text printed for it is JSON, but
    for the stack trace of a core dump that cannot be written again. *)
Theorem C92_printed : forall tokener qsort e package_name package_version d r,
  plain package_name -> plain package_version -> moves qsort -> safe_files d ->
  fst (sr_abrt_report_from_dir tokener qsort e package_name package_version d) = Ok r ->
  exists t, sr_report_to_json r = Ok t /\ sr_abrt_print_report_from_dir tokener qsort e package_name package_version d = Ok (t ++ [nl]) /\
    (valid_json t <-> core_clean r).
Proof.
  intros tokener qsort e pn pv d r Pn Pv Q F H. destruct (C67_prints _ _ _ _ _ _ _ H) as (t & E & P). apply report_iff in H.
  destruct (dir_written tokener qsort e pn pv d r F Q Pn Pv H) as (t' & E' & V). rewrite E in E'. injection E' as <-. eauto.
Qed.
(** Whoever reads the printed text gets the report. *)
Theorem C92_received : forall tokener qsort e package_name package_version d r,
  plain package_name -> plain package_version -> moves qsort -> safe_files d ->
  fst (sr_abrt_report_from_dir tokener qsort e package_name package_version d) = Ok r -> core_clean r -> few_modules r ->
  exists t, sr_abrt_print_report_from_dir tokener qsort e package_name package_version d = Ok t /\
    forall name version, survives t (sr_report_from_json name version) (report_as_read r).
Proof.
  intros tokener qsort e pn pv d r Pn Pv Q F H C M. destruct (C92_printed _ _ _ _ _ _ _ Pn Pv Q F H) as (t & E & P & V). exists (t ++ [nl]). split; [exact P|].
  intros name version. apply survives_nl. apply report_iff in H. apply (dir_back tokener qsort e pn pv d r F Q Pn Pv H); [exact M|exact E|]. now apply V.
Qed.
(** Only the CPE of the operating system and the reason of a kernel oops are lost, exactly when the numbers fit. *)
Theorem C92_lost : forall tokener qsort e package_name package_version d r, moves qsort -> safe_files d ->
  fst (sr_abrt_report_from_dir tokener qsort e package_name package_version d) = Ok r ->
  (report_as_read r = as_received r <-> numbers_fit r).
Proof. intros tokener qsort e pn pv d r Q F H. apply report_iff in H. exact (report_same _ _ _ _ _ _ _ F Q H). Qed.
(** The parts: each is made of bytes of the files. *)
Theorem C92_parts : forall tokener qsort e package_name package_version d r, moves qsort -> safe_files d ->
  fst (sr_abrt_report_from_dir tokener qsort e package_name package_version d) = Ok r -> report_safe r /\ report_range r.
Proof. intros tokener qsort e pn pv d r Q F H. apply report_iff in H. split; [exact (dir_safe _ _ _ _ _ _ _ F Q H)|exact (dir_range _ _ _ _ _ _ _ F Q H)]. Qed.

(** ** A directory *)
Lemma files_safe l : Forall (fun p => json_safe (snd p)) l -> safe_files (files l).
Proof.
  intros H name text. unfold files. destruct (find _ l) as [p|] eqn:E; [|discriminate]. apply find_some in E as (I & _). rewrite Forall_forall in H. intros X. injection X as <-. exact (H p I).
Qed.
Lemma isort_moves : moves isort.
Proof. intros cmp l. apply isort_perm. Qed.
Definition packaged : list (str * str) :=
  [(L "package", L "a"); (L "component", L "a"); (L "pkg_epoch", L "1"); (L "pkg_name", L "a"); (L "pkg_version", L "2"); (L "pkg_release", L "3"); (L "pkg_arch", L "x86_64");
   (L "os_info", L "ID=fedora" ++ [nl] ++ L "VERSION_ID=39" ++ [nl] ++ L "CPE_NAME=""cpe:/o""" ++ [nl]); (L "architecture", L "x86_64"); (L "count", L "3");
   (L "environ", L "DESKTOP_SESSION=gnome" ++ [nl])].
Definition ruby_dir : directory := files ((L "type", L "Ruby") :: (L "backtrace", L "/a.rb:7:in `f': bad (RuntimeError)" ++ [nl]) :: packaged).
Ltac bytes := repeat (apply Forall_cons || apply Forall_nil || (first [left; vm_compute; discriminate | right; left; reflexivity])).
Example C92_example : exists r, fst (sr_abrt_report_from_dir (fun _ => None) isort OtherError (L "satyr") (L "0.43") ruby_dir) = Ok r /\
  safe_files ruby_dir /\ core_clean r /\ few_modules r /\ numbers_fit r /\ rep_packages r <> [] /\ report_as_read r <> r.
Proof.
  eexists. split; [vm_compute; reflexivity|]. split; [apply files_safe; bytes|]. split; [intros s H; discriminate H|]. split; [intros s H; discriminate H|].
  split; [|split; [discriminate|]].
  - split; [reflexivity|]. split; [repeat constructor|]. intros s H. injection H as <-. repeat constructor.
  - intros H. apply (f_equal rep_os) in H. discriminate H.
Qed.

(** ** What is not so *)
(** The bytes matter: an escape character in the environment, and the report is not JSON. *)
Definition esc : ascii := ascii_of_N 27.
Definition esc_dir : directory := files ((L "type", L "Other") :: (L "os_info", L "ID=fedora" ++ [nl] ++ L "VERSION_ID=39" ++ [nl]) :: (L "architecture", L "x86_64") ::
  (L "count", L "3") :: (L "environ", L "DESKTOP_SESSION=" ++ [esc]) :: []).
Theorem C92_bytes_refuted : exists d r t, fst (sr_abrt_report_from_dir (fun _ => None) isort OtherError (L "satyr") (L "0.43") d) = Ok r /\
  core_clean r /\ sr_report_to_json r = Ok t /\ ~ valid_json t.
Proof.
  exists esc_dir. eexists. eexists. split; [vm_compute; reflexivity|]. split; [intros s H; discriminate H|]. split; [vm_compute; reflexivity|]. intros V.
  match type of V with valid_json ?t => assert (X : exists r, sr_report_to_json r = Ok t /\ fst (sr_abrt_report_from_dir (fun _ => None) isort OtherError (L "satyr") (L "0.43") esc_dir) = Ok r) end.
  { eexists. split; [|vm_compute; reflexivity]. vm_compute; reflexivity. }
  destruct X as (r & E & H). apply (report_valid_iff r (L "invalid")) in V; [| | | |exact E]; (vm_compute in H; injection H as <-).
  - destruct V as ((O & _) & _). specialize (O _ eq_refl). destruct O as (_ & _ & _ & _ & O & _). cbn in O. inversion O as [|? ? K _]. vm_compute in K. intuition (try discriminate; congruence).
  - do 2 eexists. split; [reflexivity|]. split; [reflexivity|]. split; repeat (constructor; [vm_compute; split; [|split]; discriminate|]); constructor.
  - split; [vm_compute; split; [discriminate|reflexivity]|]. split; [vm_compute; split; [discriminate|reflexivity]|]. split; [|split; [constructor|discriminate]].
    intros os X. injection X as <-. vm_compute. split; [discriminate|reflexivity].
  - reflexivity.
Qed.
(** A core dump whose file lists no threads ("{}"): the file is JSON and is read, but the report is not JSON. *)
Definition core_text : str := L "{}".
Definition core_dir : directory := files ((L "type", L "CCpp") :: (L "core_backtrace", core_text) :: C67_base).
Theorem C92_no_threads_refuted : exists d tokener r t, safe_files d /\ (forall text v, tokener text = Some v -> json_text v text) /\
  fst (sr_abrt_report_from_dir tokener isort OtherError (L "satyr") (L "0.43") d) = Ok r /\ few_modules r /\
  sr_report_to_json r = Ok t /\ ~ valid_json t.
Proof.
  set (tok := fun text => if str_eqb text core_text then Some (JObj []) else None).
  assert (S : safe_files core_dir) by (apply files_safe; bytes).
  assert (H : exists r, fst (sr_abrt_report_from_dir tok isort OtherError (L "satyr") (L "0.43") core_dir) = Ok r /\ few_modules r /\ ~ core_clean r).
  { eexists. split; [vm_compute; reflexivity|]. split; [intros s X; discriminate X|]. intros C. specialize (C _ eq_refl). cbn in C. tauto. }
  destruct H as (r & H & M & C).
  destruct (C92_printed tok isort OtherError (L "satyr") (L "0.43") core_dir r) as (t & E & _ & V).
  - repeat (constructor; [vm_compute; split; [|split]; discriminate|]); constructor.
  - repeat (constructor; [vm_compute; split; [|split]; discriminate|]); constructor.
  - exact isort_moves.
  - exact S.
  - exact H.
  - exists core_dir, tok, r, t. split; [exact S|]. split; [|split; [exact H|]; split; [exact M|]; split; [exact E|]; intros X; apply C, V, X].
    intros text v. unfold tok. destruct (str_eqb text core_text) eqn:X; [|discriminate]. apply UtilsProofs.str_eqb_eq in X. intros Y. injection Y as <-. subst text.
    exists [], core_text, []. split; [constructor|]. split; [exact (jv_obj0 [] (Forall_nil _))|]. split; [constructor|reflexivity].
Qed.
Print Assumptions C92_printed.
Print Assumptions C92_received.
Print Assumptions C92_lost.
Print Assumptions C92_parts.
Print Assumptions C92_bytes_refuted.
Print Assumptions C92_no_threads_refuted.
