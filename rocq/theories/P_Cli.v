(** * Property C73: the command line program. *)
From Verif Require Import Base Types CmpSpec UtilsModel UtilsSpec JsonSpec JsonTypesModel RpmModel RpmSpec RpmProofs4 SystemModel SystemSpec ReportModel
  PyParseSpec NormTables UtilsProofs NormModel NormSpec PyParseModel RubyParseModel JavaParseModel JsParseModel KoopsModel GdbParseModel GdbLibModel TextModel UnwindModel FileModel FileSpec AbrtModel AbrtSpec CliModel CliSpec CliProofs CliProofs2 CliProofs3 CliProofs4.
Open Scope nat_scope.

Section Cli.
Variable tokener : str -> option json.
Variable qsort : (rpm_package -> rpm_package -> Z) -> list rpm_package -> list rpm_package.
Variable sha1 : str -> str.
Variable addrmodule : Z -> option module.
Variable cxa_demangle : str -> option str.
Variable realpath : str -> option str.
Variables package_name package_version : str.
Variable m : machine.
Notation run := (main tokener qsort sha1 addrmodule cxa_demangle realpath package_name package_version m).
Notation text_of file := (sr_file_to_string (m_reading m file)).

(** ** All runs *)
(** The exit status is 0 or 1.  It is 0 exactly when nothing is said on the standard error output, except for
    abrt-report-dir.  After a failure the standard output holds nothing or the hint how to use the program.  Files are
    written by two commands only, and these print nothing. *)
Theorem C73_runs : forall path name command args o, called path name -> run (path :: command :: args) = Ok o ->
  command = L "abrt-report-dir" /\ o = mk_outcome [] [Line (L "Not implemented.")] 0 [] \/
  command <> L "abrt-report-dir" /\
  (o_status o = 0 \/ o_status o = 1) /\ (o_status o = 0 <-> o_err o = []) /\
  (o_status o = 1 -> o_out o = [] \/ o_out o = hint name) /\
  (o_files o <> [] -> o_out o = [] /\ ((exists dir more, command :: args = L "abrt-create-core-stacktrace" :: dir :: more) \/
                                      exists exe t s, command :: args = [L "debug"; L "unwind-from-hook"; exe; t; s])).
Proof. exact (all_runs tokener qsort sha1 addrmodule cxa_demangle realpath package_name package_version m). Qed.
(** The other commands never go wrong in memory. *)
Theorem C73_defined : forall path command args, command <> L "abrt-print-report-from-dir" ->
  (command = L "debug" -> hd_error args <> Some (L "duphash")) -> run (path :: command :: args) <> UB.
Proof. exact (defined tokener qsort sha1 addrmodule cxa_demangle realpath package_name package_version m). Qed.
Theorem C73_name : forall path, exists name, called path name /\ forall other, called path other -> other = name.
Proof. intros path. exists (basename path). split; [now apply called_iff|]. intros other H. symmetry. now apply called_iff. Qed.
(** Wrong invocations. *)
Theorem C73_no_command : forall path name, called path name -> run [path] = Ok (misused name []).
Proof. exact (no_command tokener qsort sha1 addrmodule cxa_demangle realpath package_name package_version m). Qed.
Theorem C73_unknown_command : forall path name command args, called path name ->
  ~ In command [L "--help"; L "--usage"; L "--version"; L "abrt-print-report-from-dir"; L "abrt-report-dir"; L "abrt-create-core-stacktrace"; L "debug"] ->
  run (path :: command :: args) = Ok (misused name [Line (L "Unknown command.")]).
Proof. exact (unknown_command tokener qsort sha1 addrmodule cxa_demangle realpath package_name package_version m). Qed.
Theorem C73_unknown_debug_command : forall path name sub args, called path name -> ~ In sub [L "normalize"; L "duphash"; L "unwind-from-hook"] ->
  run (path :: L "debug" :: sub :: args) = Ok (misused name [Line (L "Unknown debug subcommand.")]).
Proof. exact (unknown_sub tokener qsort sha1 addrmodule cxa_demangle realpath package_name package_version m). Qed.
Theorem C73_missing_arguments : forall path name, called path name ->
  run [path; L "abrt-print-report-from-dir"] = Ok (misused name [Line (L "Missing ABRT problem directory path.")]) /\
  run [path; L "abrt-create-core-stacktrace"] = Ok (misused name [Line (L "Missing ABRT problem directory path.")]) /\
  run [path; L "debug"] = Ok (misused name [Line (L "Missing debug command.")]) /\
  run [path; L "debug"; L "normalize"] = Ok (misused name [Line (L "Missing file name.")]) /\
  run [path; L "debug"; L "duphash"] = Ok (misused name [Line (L "Usage: " ++ name ++ L " debug duphash TYPE FILE [COMPONENT]")]) /\
  forall type, run [path; L "debug"; L "duphash"; type] = Ok (misused name [Line (L "Usage: " ++ name ++ L " debug duphash TYPE FILE [COMPONENT]")]).
Proof. exact (missing tokener qsort sha1 addrmodule cxa_demangle realpath package_name package_version m). Qed.
Theorem C73_texts : forall path name more, called path name ->
  run (path :: L "--help" :: more) = Ok (prints (help_text name)) /\ run (path :: L "--usage" :: more) = Ok (prints (usage_text name)) /\
  run (path :: L "--version" :: more) = Ok (prints (line (L "Satyr version " ++ package_version))).
Proof. exact (texts tokener qsort sha1 addrmodule cxa_demangle realpath package_name package_version m). Qed.

(** ** abrt-print-report-from-dir *)
(** The report the directory describes (C67) is printed as JSON, followed by a newline, and nothing else; arguments after
    the directory are ignored. *)
Theorem C73_report : forall path dir more r, describes tokener qsort (m_errno m) package_name package_version (m_dir m dir) r ->
  exists t, sr_report_to_json r = Ok t /\ run (path :: L "abrt-print-report-from-dir" :: dir :: more) = Ok (prints (line t)).
Proof. exact (print_ok tokener qsort sha1 addrmodule cxa_demangle realpath package_name package_version m). Qed.
Theorem C73_no_report : forall path dir more o, (forall r, ~ describes tokener qsort (m_errno m) package_name package_version (m_dir m dir) r) ->
  run (path :: L "abrt-print-report-from-dir" :: dir :: more) = Ok o -> o = explains [].
Proof. exact (print_fails tokener qsort sha1 addrmodule cxa_demangle realpath package_name package_version m). Qed.
(** It is memory-safe unless making the report is not (C67), or there is no message to print. *)
Theorem C73_report_defined : forall path dir more, (forall cmp l, length (qsort cmp l) = length l) ->
  (forall text, m_dir m dir (L "dso_list") = Contents text -> ~ hazard text) ->
  (forall text, m_dir m dir (L "interpreter") = Contents text -> ~ bad_epoch text) ->
  (forall t text r, m_dir m dir (L "type") = Contents t -> abrt_type t 2 -> m_dir m dir (L "backtrace") = Contents text -> py_start text r -> ~ py_runs_out r) ->
  ~ (m_dir m dir (L "package") = Missing /\ (exists text, m_dir m dir (L "dso_list") = Contents text) /\ listed_packages (m_dir m dir) []) ->
  run (path :: L "abrt-print-report-from-dir" :: dir :: more) <> UB.
Proof. exact (print_defined tokener qsort sha1 addrmodule cxa_demangle realpath package_name package_version m). Qed.

(** ** abrt-create-core-stacktrace *)
(** It succeeds, silently, exactly when the stack trace of the core dump is made and written to core_backtrace in the
    directory, as JSON with a newline; *)
Theorem C73_create : forall path dir more states,
  run (path :: L "abrt-create-core-stacktrace" :: dir :: more) = Ok (wrote (dir ++ L "/core_backtrace") states) <->
  exists s t, made addrmodule cxa_demangle (m_dump m dir) realpath (m_dir m dir) None s /\ filled s t /\
    sr_string_to_file (m_writing m (dir ++ L "/core_backtrace")) (m_disk m (dir ++ L "/core_backtrace")) (line (core_stacktrace_to_json t)) = (states, true).
Proof. exact (create_run tokener qsort sha1 addrmodule cxa_demangle realpath package_name package_version m). Qed.
(** otherwise it says why. *)
Theorem C73_create_total : forall path dir more, exists states,
  run (path :: L "abrt-create-core-stacktrace" :: dir :: more) = Ok (wrote (dir ++ L "/core_backtrace") states) \/
  run (path :: L "abrt-create-core-stacktrace" :: dir :: more) = Ok (not_written (dir ++ L "/core_backtrace") states []).
Proof. exact (create_total tokener qsort sha1 addrmodule cxa_demangle realpath package_name package_version m). Qed.
(** Whatever happens, that file alone changes, and it is unchanged or holds a leading part of the text. *)
Theorem C73_create_states : forall path dir more o file states st, run (path :: L "abrt-create-core-stacktrace" :: dir :: more) = Ok o ->
  In (file, states) (o_files o) -> In st states -> file = dir ++ L "/core_backtrace" /\
  (st = m_disk m (dir ++ L "/core_backtrace") \/
   exists s t part, made addrmodule cxa_demangle (m_dump m dir) realpath (m_dir m dir) None s /\ filled s t /\ st = Some part /\
     leading part (line (core_stacktrace_to_json t))).
Proof. exact (create_run_states tokener qsort sha1 addrmodule cxa_demangle realpath package_name package_version m). Qed.

(** ** debug normalize *)
(** Every file is read as a list of frames, in one way. *)
Theorem C73_listing : forall text, exists frames, listing text frames /\ forall other, listing text other -> other = frames.
Proof. intros text. destruct (listing_total text) as [f H]. exists f. split; [exact H|]. intros o K. eapply listing_unique; eassumption. Qed.
(** A file with one line for a pair of names gives one frame a line; the library's name keeps the space before it. *)
Theorem C73_proper_file : forall l, Forall proper l -> exists frames, listing (file_of_names l) frames /\
  Forall2 (fun p f => named_frame (fst p) (L " " ++ snd p) f) l frames.
Proof.
  intros l H. eexists. split; [now apply listing_proper|]. clear H. induction l; constructor; [now apply named_frame_iff|assumption].
Qed.
(** The names of the functions left by normalization (C23) are printed. *)
Theorem C73_normalize : forall path file more text frames, text_of file = Some text -> listing text frames ->
  exists shown, map gf_function_name (sr_normalize_gdb_frames frames) = map Some shown /\
    run (path :: L "debug" :: L "normalize" :: file :: more) = Ok (prints (thread_text shown)).
Proof. exact (normalize_run tokener qsort sha1 addrmodule cxa_demangle realpath package_name package_version m). Qed.
(** All of them are left, apart from the few that are removed whatever file they come from: prefixes are dropped and
    recursion is written once. *)
Theorem C73_normalize_exact : forall path file more text frames names, text_of file = Some text -> listing text frames ->
  map gf_function_name frames = map Some names -> (forall n s, In n names -> shortened n s -> ~ removed_everywhere s) ->
  exists shorts shown, Forall2 shortened names shorts /\ collapsed shorts shown /\
    run (path :: L "debug" :: L "normalize" :: file :: more) = Ok (prints (thread_text shown)).
Proof. exact (normalize_exact tokener qsort sha1 addrmodule cxa_demangle realpath package_name package_version m). Qed.
Theorem C73_normalize_unreadable : forall path file more, text_of file = None -> run (path :: L "debug" :: L "normalize" :: file :: more) = Ok (explains []).
Proof. exact (normalize_unreadable tokener qsort sha1 addrmodule cxa_demangle realpath package_name package_version m). Qed.

(** ** debug duphash *)
(** For a readable file with a stack trace of the given type and a crash thread, the hashed text and its hash are printed:
    those of that thread's first three frames, with the component in front (C21). *)
Theorem C73_duphash : forall path type_name file more text s t, sr_report_type_from_string (Some type_name) <> 0 -> text_of file = Some text ->
  sr_stacktrace_parse tokener (sr_report_type_from_string (Some type_name)) text = Ok s -> sr_stacktrace_find_crash_thread s = Some t ->
  exists clear, sr_thread_get_duphash sha1 t 3 (hd_error more) 2 = Ok (Some clear) /\ sr_thread_get_duphash sha1 t 3 (hd_error more) 1 = Ok (Some (sha1 clear)) /\
    run (path :: L "debug" :: L "duphash" :: type_name :: file :: more) =
      Ok (prints (line (L "Cleartext:") ++ line clear ++ line (L "Hash: " ++ sha1 clear))).
Proof. exact (duphash_ok tokener qsort sha1 addrmodule cxa_demangle realpath package_name package_version m). Qed.
(** The parser used is that of the named type; what it leaves unread is ignored. *)
Theorem C73_parsers : forall text,
  let parsed type s := sr_stacktrace_parse tokener (sr_report_type_from_string (Some type)) text = Ok s in
  (forall s, parsed (L "core") s <-> exists c, s = SCore c /\ sr_core_stacktrace_from_json_text tokener text = Ok c) /\
  (forall s, parsed (L "python") s <-> exists c rest, s = SPython c /\ sr_python_stacktrace_parse text = Ok (c, rest)) /\
  (forall s, parsed (L "kerneloops") s <-> exists c rest, s = SKoops c /\ sr_koops_stacktrace_parse text = Ok (c, rest)) /\
  (forall s, parsed (L "java") s <-> exists c rest, s = SJava c /\ sr_java_stacktrace_parse text = Ok (c, rest)) /\
  (forall s, parsed (L "gdb") s <-> exists c rest, s = SGdb c /\ sr_gdb_stacktrace_parse text = Ok (c, rest)) /\
  (forall s, parsed (L "ruby") s <-> exists c rest, s = SRuby c /\ sr_ruby_stacktrace_parse text = Ok (c, rest)) /\
  (forall s, parsed (L "javascript") s <-> exists c rest, s = SJs c /\ sr_js_stacktrace_parse text = Ok (c, rest)).
Proof. exact (parsers tokener). Qed.
(** Otherwise it says what is wrong. *)
Theorem C73_duphash_fails : forall path type_name file more,
  (sr_report_type_from_string (Some type_name) = 0 -> run (path :: L "debug" :: L "duphash" :: type_name :: file :: more) = Ok (says (L "Invalid report type " ++ type_name))) /\
  (sr_report_type_from_string (Some type_name) <> 0 -> text_of file = None -> run (path :: L "debug" :: L "duphash" :: type_name :: file :: more) = Ok (explains [])) /\
  (forall text, sr_report_type_from_string (Some type_name) <> 0 -> text_of file = Some text ->
     (sr_stacktrace_parse tokener (sr_report_type_from_string (Some type_name)) text = Fail -> run (path :: L "debug" :: L "duphash" :: type_name :: file :: more) = Ok (explains [])) /\
     forall s, sr_stacktrace_parse tokener (sr_report_type_from_string (Some type_name)) text = Ok s -> sr_stacktrace_find_crash_thread s = None ->
       run (path :: L "debug" :: L "duphash" :: type_name :: file :: more) = Ok (says (L "Cannot find crash thread"))).
Proof. exact (duphash_bad tokener qsort sha1 addrmodule cxa_demangle realpath package_name package_version m). Qed.
(** It is memory-safe exactly when parsing is. *)
Theorem C73_duphash_safe : forall path type_name file more, run (path :: L "debug" :: L "duphash" :: type_name :: file :: more) = UB <->
  sr_report_type_from_string (Some type_name) <> 0 /\ exists text, text_of file = Some text /\ sr_stacktrace_parse tokener (sr_report_type_from_string (Some type_name)) text = UB.
Proof. exact (duphash_ub tokener qsort sha1 addrmodule cxa_demangle realpath package_name package_version m). Qed.

(** ** debug unwind-from-hook *)
(** The two numbers are read by strtoul and become ints; then the stack trace of the thread is written as JSON to a file named after the time. *)
Theorem C73_unwind : forall path exe t s v w tid signum, argument t v -> becomes_int v tid -> argument s w -> becomes_int w signum ->
  match m_hook m tid exe signum, m_localtime m, m_filename m with
  | None, _, _ => run [path; L "debug"; L "unwind-from-hook"; exe; t; s] = Ok (explains (L "Unwind failed: "))
  | Some _, false, _ => run [path; L "debug"; L "unwind-from-hook"; exe; t; s] = Ok (explains (L "localtime: "))
  | Some _, true, None => run [path; L "debug"; L "unwind-from-hook"; exe; t; s] = Ok (says (L "stftime failed"))
  | Some st, true, Some file => exists states ok,
      sr_string_to_file (m_writing m file) (m_disk m file) (line (core_stacktrace_to_json st)) = (states, ok) /\
      run [path; L "debug"; L "unwind-from-hook"; exe; t; s] =
        Ok (if ok then wrote file states else not_written file states (L "Failed to write stacktrace: "))
  end.
Proof. exact (hook_run tokener qsort sha1 addrmodule cxa_demangle realpath package_name package_version m). Qed.
Theorem C73_wrong_tid : forall path exe t s, (forall v, ~ argument t v) -> run [path; L "debug"; L "unwind-from-hook"; exe; t; s] = Ok (says (L "Wrong tid")).
Proof. exact (hook_tid tokener qsort sha1 addrmodule cxa_demangle realpath package_name package_version m). Qed.
Theorem C73_wrong_signal : forall path exe t v s, argument t v -> (forall w, ~ argument s w) ->
  run [path; L "debug"; L "unwind-from-hook"; exe; t; s] = Ok (says (L "Wrong signal number")).
Proof. exact (hook_signal tokener qsort sha1 addrmodule cxa_demangle realpath package_name package_version m). Qed.
Theorem C73_wrong_count : forall path args, length args <> 3 -> run (path :: L "debug" :: L "unwind-from-hook" :: args) =
  Ok (mk_outcome [] [Line (L "Wrong number of arguments."); Line (L "Usage: satyr debug unwind-from-hook <executable> <tid> <signal>")] 1 []).
Proof. exact (hook_count tokener qsort sha1 addrmodule cxa_demangle realpath package_name package_version m). Qed.
End Cli.
Theorem C73_argument_unique : forall text v w, argument text v -> argument text w -> v = w.
Proof. exact argument_unique. Qed.
Theorem C73_int : forall v, exists z, becomes_int v z /\ forall y, becomes_int v y -> y = z.
Proof. intros v. exists (to_int v). split; [now apply to_int_iff|]. intros y H. symmetry. now apply to_int_iff. Qed.

(** ** Cases *)
Definition files (l : list (str * str)) : directory :=
  fun n => match find (fun p => str_eqb n (fst p)) l with Some p => Contents (snd p) | None => Missing end.
Definition base : list (str * str) :=
  [(L "os_info", L "ID=fedora" ++ [nl] ++ L "VERSION_ID=39" ++ [nl]); (L "architecture", L "x86_64"); (L "count", L "3"); (L "environ", [])].
Definition reads (t : str) : reading := mk_reading true (Some (N.of_nat (length t))) (Some t).
Definition C73_machine (written : nat) : machine := mk_machine
  (fun dir => if str_eqb dir (L "/ruby") then files ((L "type", L "Ruby") :: (L "backtrace", L "/a.rb:7:in `f': bad (RuntimeError)" ++ [nl]) :: (L "executable", L "/usr/bin/ruby") :: base)
              else if str_eqb dir (L "/strange") then files ((L "type", L "Ruby") :: (L "dso_list", []) :: base)
              else if str_eqb dir (L "/core") then files ((L "type", L "CCpp") :: (L "executable", L "/bin/x") :: base)
              else fun _ => Missing)
  OtherError (fun dir => if str_eqb dir (L "/core") then Some (mk_core_dump true [mk_unwound [Some (4096%Z, false)] 0] 0 None) else None)
  (fun file => if str_eqb file (L "names") then reads (L "__GI_work /lib/x" ++ [nl] ++ L "work /lib/x" ++ [nl] ++ L "main /bin/x" ++ [nl])
               else if str_eqb file (L "raise") then reads (L "work /lib/x" ++ [nl] ++ L "raise libc.so" ++ [nl] ++ L "main /bin/x" ++ [nl])
               else if str_eqb file (L "bare") then reads (L "work" ++ [nl] ++ L "main /bin/x" ++ [nl])
               else if str_eqb file (L "trace") then reads (L "/a.rb:7:in `f': bad (RuntimeError)" ++ [nl])
               else mk_reading false None None)
  (fun _ => mk_writing true (Some written) true) (fun _ => None)
  (fun tid exe signum => if (tid =? 7)%Z && (signum =? 11)%Z then Some (mk_core_stacktrace 11 (Some exe) None [] true) else None) true (Some (L "/tmp/out.json")).
Definition C73_run written := main (fun _ => None) isort (fun s => L "<" ++ s ++ L ">") (fun _ => None) (fun _ => None) (fun _ => None) (L "satyr") (L "0.43") (C73_machine written).
Example C73_case_name : called (L "/usr/bin/satyr") (L "satyr") /\ called (L "satyr//") (L "satyr") /\ called (L "//") (L "/").
Proof. split; [|split]; apply called_iff; reflexivity. Qed.
Example C73_case_report : exists o, C73_run 0 [L "satyr"; L "abrt-print-report-from-dir"; L "/ruby"] = Ok o /\ o_status o = 0 /\ length (o_out o) = 791 /\
  exists r, describes (fun _ => None) isort OtherError (L "satyr") (L "0.43") (m_dir (C73_machine 0) (L "/ruby")) r.
Proof.
  eexists. split; [vm_compute; reflexivity|]. split; [reflexivity|]. split; [vm_compute; reflexivity|].
  eexists. apply AbrtProofs2.report_iff. vm_compute. reflexivity.
Qed.
Example C73_case_no_report : C73_run 0 [L "satyr"; L "abrt-print-report-from-dir"; L "/none"] = Ok (explains []).
Proof. vm_compute. reflexivity. Qed.
(** A full write, and a disk that is full after 200 bytes. *)
Example C73_case_create :
  (exists o, C73_run 230 [L "satyr"; L "abrt-create-core-stacktrace"; L "/core"] = Ok o /\ o_status o = 0 /\
     map (fun p => (fst p, map (option_map (@length ascii)) (snd p))) (o_files o) = [(L "/core/core_backtrace", [None; Some 0; Some 230])]) /\
  exists o, C73_run 200 [L "satyr"; L "abrt-create-core-stacktrace"; L "/core"] = Ok o /\ o_status o = 1 /\ o_err o = [Explained []] /\
     map (fun p => (fst p, map (option_map (@length ascii)) (snd p))) (o_files o) = [(L "/core/core_backtrace", [None; Some 0; Some 200])].
Proof. split; (eexists; split; [vm_compute; reflexivity|]; repeat split; vm_compute; reflexivity). Qed.
Example C73_case_normalize : C73_run 0 [L "satyr"; L "debug"; L "normalize"; L "names"] = Ok (prints (thread_text [L "work"; L "main"])) /\
  exists l, Forall proper l /\ sr_file_to_string (m_reading (C73_machine 0) (L "names")) = Some (file_of_names l) /\ length l = 3.
Proof.
  split; [vm_compute; reflexivity|]. exists [(L "__GI_work", L "/lib/x"); (L "work", L "/lib/x"); (L "main", L "/bin/x")].
  split; [|split; [vm_compute; reflexivity|reflexivity]].
  repeat constructor; intros H; cbn in H; repeat (destruct H as [H|H]; [discriminate|]); exact H.
Qed.
(** The hypothesis of C73_normalize_exact holds of these names. *)
Example C73_case_exact : forall n s, In n [L "__GI_work"; L "work"; L "main"] -> shortened n s -> ~ removed_everywhere s.
Proof.
  assert (T : forall n, existsb (fun r => str_eqb n (fst r) && existsb (str_eqb []) (snd r)) (removable_table ++ above_table) = false -> ~ removed_everywhere n).
  { intros n H (fs & I & J). apply in_app_iff in I. apply Bool.not_true_iff_false in H. apply H. apply existsb_exists. exists (n, fs). split; [exact I|].
    cbn [fst snd]. rewrite str_eqb_refl. apply existsb_exists. exists []. split; [exact J|reflexivity]. }
  intros n s I [(p & q & r & D & E & ->)|[F ->]].
  - destruct D; repeat (destruct I as [<-|I]; [try discriminate E|]); try (destruct I). injection E as <-. apply T. vm_compute. reflexivity.
  - repeat (destruct I as [<-|I]; [apply T; vm_compute; reflexivity|]). destruct I.
Qed.
Example C73_case_duphash :
  C73_run 0 [L "satyr"; L "debug"; L "duphash"; L "ruby"; L "trace"; L "comp"] =
    Ok (prints (line (L "Cleartext:") ++ line (L "compThread" ++ [nl] ++ L "/a.rb:7" ++ [nl]) ++ line (L "Hash: <compThread" ++ [nl] ++ L "/a.rb:7" ++ [nl] ++ L ">"))) /\
  C73_run 0 [L "satyr"; L "debug"; L "duphash"; L "perl"; L "trace"] = Ok (says (L "Invalid report type perl")) /\
  C73_run 0 [L "satyr"; L "debug"; L "duphash"; L "python"; L "trace"] = Ok (explains []).
Proof. split; [|split]; vm_compute; reflexivity. Qed.
Example C73_case_unwind :
  (exists states, C73_run 97 [L "satyr"; L "debug"; L "unwind-from-hook"; L "/bin/x"; L "7"; L " +11"] = Ok (wrote (L "/tmp/out.json") states)) /\
  C73_run 97 [L "satyr"; L "debug"; L "unwind-from-hook"; L "/bin/x"; L "7x"; L "11"] = Ok (says (L "Wrong tid")) /\
  C73_run 97 [L "satyr"; L "debug"; L "unwind-from-hook"; L "/bin/x"; L "8"; L "11"] = Ok (explains (L "Unwind failed: ")).
Proof. split; [eexists|split]; vm_compute; reflexivity. Qed.

(** ** Where the program does not do what one expects *)
(** "The exit status tells success" is false: reporting is not implemented, and succeeds. *)
Theorem C73_status_refuted : exists args o, C73_run 0 (L "satyr" :: args) = Ok o /\ o_err o = [Line (L "Not implemented.")] /\ o_status o = 0.
Proof. exists [L "abrt-report-dir"; L "/ruby"]. eexists. split; [vm_compute; reflexivity|split; reflexivity]. Qed.
(** "A failure says why" is false: a directory without packages has the pointer to the message printed, which was never set (C67). *)
Theorem C73_message_refuted : exists dir, C73_run 0 [L "satyr"; L "abrt-print-report-from-dir"; dir] = UB.
Proof. exists (L "/strange"). vm_compute. reflexivity. Qed.
(** "The program can be run with an empty argument vector" is false. *)
Theorem C73_empty_refuted : C73_run 0 [] = UB.
Proof. reflexivity. Qed.
(** "The frames C23 removes are removed" is false: the file's second column is not taken as the source file. *)
Theorem C73_libc_refuted : exists file library,
  sr_file_to_string (m_reading (C73_machine 0) file) = Some (file_of_names [(L "work", L "/lib/x"); (L "raise", library); (L "main", L "/bin/x")]) /\
  (forall f, gf_function_name f = Some (L "raise") -> gf_source_file f = Some library -> sr_gdb_is_exit_frame f = true) /\
  C73_run 0 [L "satyr"; L "debug"; L "normalize"; file] = Ok (prints (thread_text [L "work"; L "raise"; L "main"])).
Proof.
  exists (L "raise"), (L "libc.so"). split; [vm_compute; reflexivity|]. split; [|vm_compute; reflexivity].
  intros f H K. unfold sr_gdb_is_exit_frame, sr_gdb_frame_calls_func. rewrite H, K. vm_compute. reflexivity.
Qed.
(** "A line makes a frame" is false: without a space a line takes the next one along. *)
Theorem C73_swallow_refuted : exists file a b, sr_file_to_string (m_reading (C73_machine 0) file) = Some (line a ++ line (b ++ L " /bin/x")) /\
  C73_run 0 [L "satyr"; L "debug"; L "normalize"; file] = Ok (prints (thread_text [line a ++ b])).
Proof. exists (L "bare"), (L "work"), (L "main"). split; vm_compute; reflexivity. Qed.
(** "A tid is a number" is false: nothing is 0, and what does not fit is wrapped. *)
Theorem C73_tid_refuted : argument [] 0 /\ C73_run 97 [L "satyr"; L "debug"; L "unwind-from-hook"; L "/bin/x"; L "4294967303"; L "11"] =
  C73_run 97 [L "satyr"; L "debug"; L "unwind-from-hook"; L "/bin/x"; L "7"; L "11"].
Proof. split; [left; split; reflexivity|vm_compute; reflexivity]. Qed.
Print Assumptions C73_runs.
Print Assumptions C73_defined.
Print Assumptions C73_name.
Print Assumptions C73_no_command.
Print Assumptions C73_unknown_command.
Print Assumptions C73_unknown_debug_command.
Print Assumptions C73_missing_arguments.
Print Assumptions C73_texts.
Print Assumptions C73_report.
Print Assumptions C73_no_report.
Print Assumptions C73_report_defined.
Print Assumptions C73_create.
Print Assumptions C73_create_total.
Print Assumptions C73_create_states.
Print Assumptions C73_listing.
Print Assumptions C73_proper_file.
Print Assumptions C73_normalize.
Print Assumptions C73_normalize_exact.
Print Assumptions C73_normalize_unreadable.
Print Assumptions C73_duphash.
Print Assumptions C73_parsers.
Print Assumptions C73_duphash_fails.
Print Assumptions C73_duphash_safe.
Print Assumptions C73_unwind.
Print Assumptions C73_wrong_tid.
Print Assumptions C73_wrong_signal.
Print Assumptions C73_wrong_count.
Print Assumptions C73_argument_unique.
Print Assumptions C73_int.
Print Assumptions C73_status_refuted.
Print Assumptions C73_message_refuted.
Print Assumptions C73_empty_refuted.
Print Assumptions C73_libc_refuted.
Print Assumptions C73_swallow_refuted.
Print Assumptions C73_tid_refuted.
