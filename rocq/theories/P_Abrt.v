(** * Property C67: reports and core stack traces from problem directories. *)
From Verif Require Import Base Types CmpSpec UtilsModel JsonSpec JsonModel JsonProofs JsonTypesModel JsonTypesSpec JsonRoundtrip3 TextModel RpmModel RpmSpec RpmProofs4
  ParseProofs SystemModel SystemSpec SystemProofs SystemProofs2 ReportModel ReportSpec ReportProofs5 PyParseSpec UnwindModel UnwindProofs JsParseModel FileModel FileSpec FileProofs AbrtModel AbrtSpec
  AbrtProofs AbrtProofs2 AbrtProofs3.
Open Scope nat_scope.
Ltac safe1 := apply Forall_nil || apply Forall_cons || exact Logic.I || (left; vm_compute; discriminate) || (right; tauto) || split.
Ltac safe := repeat safe1.

(** ** Reports *)
(** C67.  A report is made exactly when the directory describes one, and it holds exactly what is described. *)
Theorem C67_report_exact : forall tokener qsort e package_name package_version d r,
  fst (sr_abrt_report_from_dir tokener qsort e package_name package_version d) = Ok r <->
  describes tokener qsort e package_name package_version d r.
Proof. exact report_iff. Qed.
Theorem C67_report_unique : forall tokener qsort e package_name package_version d r r',
  describes tokener qsort e package_name package_version d r -> describes tokener qsort e package_name package_version d r' -> r = r'.
Proof. exact report_unique. Qed.
Theorem C67_trace_exact : forall tokener d type st, stacktrace_from_dir tokener type d = Ok st <-> holds_trace tokener d type st.
Proof. exact trace_iff. Qed.
(** It is memory-safe unless a package name has a bad epoch (C47) or a Python trace ends where a frame could start (C42). *)
Theorem C67_defined : forall tokener qsort e package_name package_version d,
  (forall text, d (L "dso_list") = Contents text -> ~ hazard text) ->
  (forall text, d (L "interpreter") = Contents text -> ~ bad_epoch text) ->
  (forall t text r, d (L "type") = Contents t -> abrt_type t 2 -> d (L "backtrace") = Contents text -> py_start text r -> ~ py_runs_out r) ->
  fst (sr_abrt_report_from_dir tokener qsort e package_name package_version d) <> UB.
Proof. exact from_dir_defined. Qed.
(** Every report made from a directory can be printed. *)
Theorem C67_prints : forall tokener qsort e package_name package_version d r,
  fst (sr_abrt_report_from_dir tokener qsort e package_name package_version d) = Ok r ->
  exists t, sr_report_to_json r = Ok t /\ sr_abrt_print_report_from_dir tokener qsort e package_name package_version d = Ok (t ++ [nl]).
Proof.
  intros k q e pn pv d r H. destruct (report_prints k q e pn pv d r (proj1 (report_iff _ _ _ _ _ _ _) H)) as [t E]. exists t. split; [exact E|].
  unfold sr_abrt_print_report_from_dir. rewrite H. cbn [bind]. now rewrite E.
Qed.
(** When there is no report there is an error message, except for a program that is not packaged and whose dso_list
    names no package. *)
Theorem C67_message : forall tokener qsort e package_name package_version d, (forall cmp l, length (qsort cmp l) = length l) ->
  sr_abrt_report_from_dir tokener qsort e package_name package_version d = (Fail, false) ->
  d (L "package") = Missing /\ (exists text, d (L "dso_list") = Contents text) /\ listed_packages d [].
Proof. exact no_message. Qed.
(** With a report comes an error message exactly when one of these files cannot be read. *)
Theorem C67_message_with_report : forall tokener qsort e package_name package_version d r m,
  sr_abrt_report_from_dir tokener qsort e package_name package_version d = (Ok r, m) ->
  m = true <-> (forall s, d (L "os_info") <> Contents s) \/ (forall s, d (L "environ") <> Contents s) \/
    (d (L "package") <> Missing /\ forall s, d (L "component") <> Contents s) \/ (d (L "package") = Missing /\ d (L "executable") = Unreadable) \/
    d (L "dso_list") = Unreadable \/ d (L "interpreter") = Unreadable.
Proof. exact ok_message. Qed.
Definition files (l : list (str * str)) : directory :=
  fun n => match find (fun p => str_eqb n (fst p)) l with Some p => Contents (snd p) | None => Missing end.
Definition C67_base : list (str * str) :=
  [(L "os_info", L "ID=fedora" ++ [nl] ++ L "VERSION_ID=39" ++ [nl]); (L "architecture", L "x86_64"); (L "count", L "3"); (L "environ", [])].
Definition C67_ruby : directory := files ((L "type", L "Ruby") :: (L "backtrace", L "/a.rb:7:in `f': bad (RuntimeError)" ++ [nl]) ::
  (L "executable", L "/usr/bin/ruby") :: C67_base).
Example C67_case : sr_abrt_report_from_dir (fun _ => None) isort OtherError (L "satyr") (L "0.43") C67_ruby =
  (Ok (mk_report 2 6 (Some (L "satyr")) (Some (L "0.43")) false true
         (Some (mk_os (Some (L "fedora")) (Some (L "39")) (Some (L "x86_64")) None 0 None None)) (Some (L "ruby-unpackaged")) []
         (Some (SRuby (mk_ruby_stacktrace (Some (L "RuntimeError")) [mk_ruby_frame (Some (L "/a.rb")) 7 false (Some (L "f")) 0 0]))) [] 3), false).
Proof. vm_compute. reflexivity. Qed.
Definition C67_oops : directory := files ((L "type", L "Kerneloops") :: (L "kernel", L "6.1.0") :: (L "backtrace", L "BUG: x" ++ [nl] ++ L "[<1f>] foo+0x1/0x2" ++ [nl]) :: C67_base).
Example C67_case_oops : exists r s, fst (sr_abrt_report_from_dir (fun _ => None) isort OtherError (L "satyr") (L "0.43") C67_oops) = Ok r /\
  rep_stacktrace r = Some (SKoops s) /\ ks_version s = Some (L "6.1.0") /\ map kf_function_name (ks_frames s) = [Some (L "foo")] /\ rep_component r = None.
Proof. do 2 eexists. split; [vm_compute; reflexivity|]. split; [reflexivity|]. split; [reflexivity|]. split; reflexivity. Qed.
(** "There is a message exactly when there is no report" is false both ways. *)
Theorem C67_message_refuted : exists d, forall tokener, sr_abrt_report_from_dir tokener isort OtherError (L "satyr") (L "0.43") d = (Fail, false).
Proof. exists (files ((L "type", L "Ruby") :: (L "dso_list", []) :: C67_base)). intros k. vm_compute. reflexivity. Qed.
Theorem C67_spurious_message_refuted : exists d r, forall tokener, sr_abrt_report_from_dir tokener isort OtherError (L "satyr") (L "0.43") d = (Ok r, true).
Proof. exists (files ((L "type", L "other") :: removelast C67_base)). eexists. intros k. vm_compute. reflexivity. Qed.
(** "A report has a type and a stack trace" is false: of an unknown type it is made nevertheless. *)
Theorem C67_unknown_type_refuted : exists d r, (forall tokener, fst (sr_abrt_report_from_dir tokener isort OtherError (L "satyr") (L "0.43") d) = Ok r) /\
  rep_type r = 0 /\ rep_stacktrace r = None.
Proof. exists (files ((L "type", L "other") :: C67_base)). eexists. split; [intros k; vm_compute; reflexivity|split; reflexivity]. Qed.

(** ** Core stack traces *)
(** The file core_backtrace is written exactly when the stack trace is made from the core dump and all calls succeed; it
    holds the stack trace with the file names of the kernel's own frames filled in. *)
Theorem C67_create_exact : forall addrmodule cxa_demangle dump realpath w d old gdb_output states,
  create_core_stacktrace addrmodule cxa_demangle dump realpath w d old gdb_output = Ok (states, true) <->
  exists s t, made addrmodule cxa_demangle dump realpath d gdb_output s /\ filled s t /\ sr_string_to_file w old (file_text t) = (states, true).
Proof.
  intros. rewrite create_iff. split.
  - intros (s & M & W). exists s, (fulfill_missing_values s). split; [exact M|]. split; [apply fulfill_ok|exact W].
  - intros (s & t & M & F & W). apply filled_iff in F. subst. eauto.
Qed.
Theorem C67_filled_unique : forall s t t', filled s t -> filled s t' -> t = t'.
Proof. intros s t t' H K. apply filled_iff in H, K. congruence. Qed.
(** Whatever happens, the file is unchanged or holds a leading part of that text. *)
Theorem C67_create_states : forall addrmodule cxa_demangle dump realpath w d old gdb_output states b st,
  create_core_stacktrace addrmodule cxa_demangle dump realpath w d old gdb_output = Ok (states, b) -> In st states ->
  st = old \/ exists s t part, made addrmodule cxa_demangle dump realpath d gdb_output s /\ filled s t /\ st = Some part /\ leading part (file_text t).
Proof.
  intros a c du rp w d old g states b st H K. destruct (create_states _ _ _ _ _ _ _ _ _ _ _ H K) as [G|(s & part & M & E & P)]; [now left|].
  right. exists s, (fulfill_missing_values s), part. split; [exact M|]. split; [apply fulfill_ok|auto].
Qed.
(** The report made afterwards has that stack trace, and the other parts are those of the directory. *)
Theorem C67_end_to_end : forall addrmodule cxa_demangle dump realpath tokener qsort e package_name package_version w d old gdb_output states s t type os packages serial,
  create_core_stacktrace addrmodule cxa_demangle dump realpath w d old gdb_output = Ok (states, true) ->
  made addrmodule cxa_demangle dump realpath d gdb_output s -> filled s t ->
  core_ok t -> fits (file_text t) -> understands tokener (file_text t) ->
  d (L "type") = Contents type -> abrt_type type 1 -> sr_abrt_operating_system_from_dir d = Ok os ->
  sr_abrt_rpm_packages_from_dir qsort d = Ok packages -> occurrences_from_dir e d = Some serial ->
  exists r, fst (sr_abrt_report_from_dir tokener qsort e package_name package_version (with_file d (L "core_backtrace") (file_of (final states)))) = Ok r /\
    rep_stacktrace r = Some (SCore t) /\ rep_type r = 1 /\ rep_os r = Some os /\ rep_packages r = packages /\ rep_serial r = serial /\
    component_of d (rep_component r).
Proof.
  intros a c du rp k q e pn pv w d old g states s t type os ps n H M F Hok Hf Hu. apply filled_iff in F. subst t.
  exact (end_to_end a c du rp k q e pn pv w d old g states s type os ps n H M Hok Hf Hu).
Qed.
(** [file_of] is what reading the file gives. *)
Theorem C67_file_of : forall r bytes, reads_all r bytes ->
  file_of (Some bytes) = match sr_file_to_string r with Some s => Contents s | None => Unreadable end.
Proof. exact file_of_read. Qed.
(** A text that denotes a JSON value has no NUL byte, so it survives as a C string. *)
Theorem C67_json_is_c_string : forall v t, json_text v t -> ~ In nul t.
Proof. exact json_text_nul_free. Qed.
Definition C67_dump : core_dump := mk_core_dump true [mk_unwound [Some (4096%Z, false); Some (8192%Z, false)] 0] 0 None.
Definition C67_addrmodule (a : Z) : option module :=
  if (a <? 8000)%Z then None else Some (mk_module (L "AB") None (fun _ => Some (L "__kernel_vsyscall"))).
Definition C67_core : directory := files ((L "type", L "CCpp") :: (L "executable", L "/bin/x") :: C67_base).
Definition C67_filled : core_stacktrace := fulfill_missing_values (mk_core_stacktrace 0 (Some (L "/bin/x")) (Some 0)
  [mk_core_thread [resolve_frame C67_addrmodule (fun _ => None) 4096 false; resolve_frame C67_addrmodule (fun _ => None) 8192 false]] false).
Example C67_case_fill : map cf_file_name (concat (map ct_frames (cs_threads C67_filled))) = [None; Some (L "kernel")].
Proof. vm_compute. reflexivity. Qed.
Example C67_case_create :
  create_core_stacktrace C67_addrmodule (fun _ => None) (Some C67_dump) (fun _ => None) (mk_writing true (Some (length (file_text C67_filled))) true) C67_core None None =
    Ok ([None; Some []; Some (file_text C67_filled)], true) /\
  (exists s, made C67_addrmodule (fun _ => None) (Some C67_dump) (fun _ => None) C67_core None s /\ filled s C67_filled) /\
  core_ok C67_filled /\ fits (file_text C67_filled) /\ exists tokener, understands tokener (file_text C67_filled).
Proof.
  split; [vm_compute; reflexivity|]. split.
  { eexists. split; [exists (L "/bin/x"); split; [reflexivity|vm_compute; reflexivity]|]. apply filled_iff. vm_compute. reflexivity. }
  assert (Hok : core_ok C67_filled).
  { replace C67_filled with (mk_core_stacktrace 0 (Some (L "/bin/x")) (Some 0) [mk_core_thread
      [mk_core_frame 4096 None 4096 None None None true; mk_core_frame 8192 (Some (L "4142")) 8192 (Some (L "__kernel_vsyscall")) (Some (L "kernel")) None true]] false)
      by (vm_compute; reflexivity).
    unfold core_ok, core_frames; cbn [cs_signal cs_executable cs_threads cs_crash_thread ct_frames map concat app].
    split; [unfold u16, two16; lia|]. split; [safe|]. split; [|split; [discriminate|]].
    - constructor; [|constructor; [|constructor]]; unfold core_frame_ok, core_frame_safe, ulong_max, opt_safe; cbn.
      all: split; [left; lia|]; split; [left; lia|]; split; [reflexivity|]; safe.
    - exists 0. eexists. split; [reflexivity|]. split; [reflexivity|discriminate]. }
  split; [exact Hok|]. split; [vm_compute; discriminate|].
  destruct (core_ok_survives _ Hok) as [[v Hv] _]. exists (fun _ => Some v). intros v' H'. f_equal.
  assert (W : ws [nl]) by (constructor; [|constructor]; unfold ws_char; auto). apply (json_text_unique _ _ _ (json_text_ws_after _ _ _ W Hv) H').
Qed.
(** "A created file can be read" is false: a core dump without threads is written as malformed JSON. *)
Theorem C67_no_threads_refuted : exists dump states text, sr_abrt_create_core_stacktrace (fun _ => None) (fun _ => None) dump (fun _ => None)
    (mk_writing true (Some (length text)) true) C67_core None = Ok (states, true) /\
  final states = Some text /\ ~ valid_json text.
Proof.
  exists (Some (mk_core_dump true [] 0 None)).
  pose (t := mk_core_stacktrace 0 (Some (L "/bin/x")) None [] false). exists [None; Some []; Some (file_text t)], (file_text t).
  split; [vm_compute; reflexivity|]. split; [reflexivity|]. intros [v Hv].
  assert (V : valid_json (core_stacktrace_to_json t)) by (apply valid_without_nl; exists v; exact Hv).
  apply core_valid_iff in V as [_ V]. now apply V.
Qed.
(** ** Dying processes *)
(** What the crash handler gets: the JSON text of the stack trace (C65) with the kernel's frames filled in. *)
Theorem C67_hook : forall addrmodule cxa_demangle attach u executable signum text m,
  sr_abrt_get_core_stacktrace_from_core_hook_generate addrmodule cxa_demangle attach u executable signum = (Ok text, m) <->
  exists s t, sr_core_stacktrace_from_core_hook_generate addrmodule cxa_demangle attach u executable signum = (Ok s, m) /\ filled s t /\ text = file_text t.
Proof.
  intros a c at' u x n text m. unfold sr_abrt_get_core_stacktrace_from_core_hook_generate.
  destruct (sr_core_stacktrace_from_core_hook_generate a c at' u x n) as [[s| |] m']; split.
  - intros H. exists s, (fulfill_missing_values s). split; [congruence|]. split; [apply fulfill_ok|unfold file_text; congruence].
  - intros (s' & t & H & F & E). injection H as <- <-. apply filled_iff in F. subst. reflexivity.
  - discriminate.
  - intros (s' & t & H & _). discriminate.
  - discriminate.
  - intros (s' & t & H & _). discriminate.
Qed.
(** When attaching fails there is a text nevertheless, of a stack trace with no frames. *)
Theorem C67_hook_refuted : exists u text, sr_abrt_get_core_stacktrace_from_core_hook_generate (fun _ => None) (fun _ => None) false u (Some (L "/bin/x")) 11 = (Ok text, true).
Proof. exists (mk_unwound [] 0). eexists. vm_compute. reflexivity. Qed.

(** ** JSON texts *)
Theorem C67_core_text : forall tokener t, core_ok t -> understands tokener (core_stacktrace_to_json t) ->
  sr_core_stacktrace_from_json_text tokener (core_stacktrace_to_json t) = Ok t.
Proof. intros k t H U. apply from_text_survives; [now apply core_ok_survives|exact U]. Qed.
Theorem C67_report_text : forall tokener package_name package_version r t, report_ok r -> sr_report_to_json r = Ok t -> understands tokener t ->
  sr_report_from_json_text tokener package_name package_version t = Ok r.
Proof.
  intros k pn pv r t H E U. destruct (report_ok_roundtrip pn pv r H) as (t' & E' & Hs). rewrite E in E'. injection E' as <-.
  apply from_text_survives; assumption.
Qed.

(** A text of any kind of stack trace: what was printed is read back; a text that is not JSON is refused. *)
Theorem C67_generic_text : forall tokener s t, stacktrace_ok s \/ (exists j, s = SJs j /\ js_ok j) -> sr_stacktrace_to_json s = Some t -> understands tokener t ->
  sr_stacktrace_from_json_text tokener (stacktrace_type s) t = Ok (Some s).
Proof. exact generic_text_ok. Qed.
Theorem C67_generic_text_refused : forall tokener type t, tokener t = None -> sr_stacktrace_from_json_text tokener type t = Ok None.
Proof. intros k type t H. unfold sr_stacktrace_from_json_text. now rewrite H. Qed.
(** The type in the file analyzer is that of the file type (C55). *)
Theorem C67_analyzer : forall s, abrt_type s (sr_abrt_type_from_analyzer s).
Proof. exact abrt_ok. Qed.
(** Without output of gdb nothing is written; with it the stack trace is made from that output, not from the dump. *)
Theorem C67_from_gdb : forall addrmodule cxa_demangle dump realpath w d old gdb_output states,
  sr_abrt_create_core_stacktrace_from_gdb addrmodule cxa_demangle dump realpath w d old gdb_output = Ok (states, true) <->
  exists g s t, gdb_output = Some g /\ made addrmodule cxa_demangle dump realpath d (Some g) s /\ filled s t /\ sr_string_to_file w old (file_text t) = (states, true).
Proof.
  intros a c du rp w d old g states. unfold sr_abrt_create_core_stacktrace_from_gdb. destruct g as [g|].
  - rewrite C67_create_exact. split.
    + intros (s & t & H). exists g, s, t. tauto.
    + intros (g' & s & t & E & H). injection E as <-. exists s, t. exact H.
  - split; [intros H; apply ok_inj in H; discriminate|]. intros (g & s & t & H & _). discriminate.
Qed.
Theorem C67_from_gdb_nothing : forall addrmodule cxa_demangle dump realpath w d old,
  sr_abrt_create_core_stacktrace_from_gdb addrmodule cxa_demangle dump realpath w d old None = Ok ([old], false).
Proof. reflexivity. Qed.

(** ** JavaScript *)
(** Only Node.js is known; a stack trace of it is one as C43 describes, of that platform. *)
Theorem C67_js_platform : forall n, sr_js_platform_from_string n <> 0%Z <-> n = L "Node.js".
Proof. exact js_platform_iff. Qed.
Theorem C67_js_stacktrace : forall p text s rest,
  sr_js_platform_parse_stacktrace p text = Ok (s, rest) <->
  js_valid (js_platform_runtime p) = true /\ js_valid (js_platform_engine p) = true /\ js_platform s = p /\
  exists s', sr_js_stacktrace_parse text = Ok (s', rest) /\ js_exception_name s = js_exception_name s' /\ js_frames s = js_frames s'.
Proof. exact js_stacktrace_iff. Qed.
Theorem C67_js_frame : forall p text f rest,
  sr_js_platform_parse_frame p text = Ok (f, rest) <->
  js_valid (js_platform_runtime p) = true /\ js_valid (js_platform_engine p) = true /\ sr_js_frame_parse_v8 text = Ok (f, rest).
Proof. exact js_frame_iff. Qed.
Example C67_case_js : js_valid (js_platform_runtime (sr_js_platform_from_string (L "Node.js"))) && js_valid (js_platform_engine (sr_js_platform_from_string (L "Node.js"))) = true.
Proof. reflexivity. Qed.
Print Assumptions C67_report_exact.
Print Assumptions C67_report_unique.
Print Assumptions C67_trace_exact.
Print Assumptions C67_defined.
Print Assumptions C67_prints.
Print Assumptions C67_message.
Print Assumptions C67_message_with_report.
Print Assumptions C67_message_refuted.
Print Assumptions C67_spurious_message_refuted.
Print Assumptions C67_unknown_type_refuted.
Print Assumptions C67_create_exact.
Print Assumptions C67_filled_unique.
Print Assumptions C67_create_states.
Print Assumptions C67_end_to_end.
Print Assumptions C67_file_of.
Print Assumptions C67_json_is_c_string.
Print Assumptions C67_no_threads_refuted.
Print Assumptions C67_hook.
Print Assumptions C67_hook_refuted.
Print Assumptions C67_core_text.
Print Assumptions C67_report_text.
Print Assumptions C67_generic_text.
Print Assumptions C67_generic_text_refused.
Print Assumptions C67_analyzer.
Print Assumptions C67_from_gdb.
Print Assumptions C67_from_gdb_nothing.
Print Assumptions C67_js_platform.
Print Assumptions C67_js_stacktrace.
Print Assumptions C67_js_frame.
