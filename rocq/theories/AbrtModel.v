(** * Reports and core stack traces from problem directories (lib/abrt.c), and reading JSON texts. *)
From Verif Require Import Base Types UtilsModel JsonSpec JsonTypesModel RpmModel SystemModel ReportModel
  PyParseModel RubyParseModel JavaParseModel JsParseModel KoopsModel GdbParseModel GdbLibModel UnwindModel FileModel TextModel.
Open Scope nat_scope.

(** ** JSON texts *)
Section Texts.
Variable tokener : str -> option json.     (* json_tokener_parse_verbose of json-c; None is NULL *)
(* a text, then the reader of the value; an unreadable text is NULL with a message *)
Definition from_text {A} (read : json -> res A) (text : str) : res A :=
  match tokener text with None => Fail | Some root => read root end.
(* lib/core_stacktrace.c:226-251 sr_core_stacktrace_from_json_text *)
Definition sr_core_stacktrace_from_json_text (text : str) : res core_stacktrace := from_text core_stacktrace_from_json text.
(* lib/report.c:450-472 sr_report_from_json_text *)
Definition sr_report_from_json_text (package_name package_version text : str) : res report :=
  from_text (sr_report_from_json package_name package_version) text.
(* lib/generic_stacktrace.c:108-133 sr_stacktrace_from_json_text; the inner None is NULL *)
Definition sr_stacktrace_from_json_text (type : nat) (text : str) : res (option stacktrace) :=
  match tokener text with None => Ok None | Some root => sr_stacktrace_from_json type root end.

(** ** JavaScript platforms *)
(* lib/js_platform.c:93-127 sr_js_platform_from_string; 0 is SR_JS_PLATFORM_NULL *)
Definition sr_js_platform_from_string (runtime_name : str) : Z :=
  let runtime := js_runtime_from_string runtime_name in
  if (runtime =? 0)%Z then 0%Z
  else
    let engine := if (runtime =? 1)%Z then 1%Z else 0%Z in
    if (engine =? 0)%Z then 0%Z else js_assemble runtime engine.
(* lib/js_platform.c:32-42 RETURN_ON_INVALID_RUNTIME and RETURN_ON_INVALID_ENGINE: 0 and the upper bound 2 and above *)
Definition js_valid (n : Z) : bool := (0 <? n)%Z && (n <? 2)%Z.
(* lib/js_platform.c:242-261 sr_js_platform_parse_frame; the only runtime has no parser of its own *)
Definition sr_js_platform_parse_frame (platform : Z) (input : str) : res (js_frame * str) :=
  if js_valid (js_platform_runtime platform) && js_valid (js_platform_engine platform) then sr_js_frame_parse_v8 input else Fail.
(* lib/js_platform.c:262-286 sr_js_platform_parse_stacktrace *)
Definition sr_js_platform_parse_stacktrace (platform : Z) (input : str) : res (js_stacktrace * str) :=
  if js_valid (js_platform_runtime platform) && js_valid (js_platform_engine platform) then
    do (s, rest) <- sr_js_stacktrace_parse input;
    Ok (mk_js_stacktrace (js_exception_name s) (js_frames s) platform, rest)
  else Fail.

(** ** Reports *)
(* is an error message set by reading a file *)
Definition unreadable (d : directory) (name : str) : bool := match file_contents d name with Some _ => false | None => true end.
(* lib/abrt.c:546-593: messages left behind by a successful sr_abrt_operating_system_from_dir *)
Definition os_message (d : directory) : bool := unreadable d (L "os_info") || unreadable d (L "environ").
(* lib/abrt.c:516-544: messages of get_component *)
Definition component_message (d : directory) : bool :=
  if is_packaged d then unreadable d (L "component") else file_exist d (L "executable") && unreadable d (L "executable").
(* lib/abrt.c:412-437: messages of sr_abrt_rpm_packages_from_dir *)
Definition packages_message (d : directory) : bool :=
  (is_packaged d && (unreadable d (L "pkg_epoch") || unreadable d (L "pkg_name") || unreadable d (L "pkg_version") ||
                     unreadable d (L "pkg_release") || unreadable d (L "pkg_arch") ||
                     match file_contents d (L "pkg_epoch") with Some t => (strtoul_value t =? u64max)%N | None => true end)) ||
  (file_exist d (L "dso_list") && unreadable d (L "dso_list")) ||
  (file_exist d (L "interpreter") && unreadable d (L "interpreter")).
(* lib/abrt.c:640-840 the stack trace; Fail is NULL with a message.  The JavaScript part (lines 788-840) is never
   reached because no type maps to it; it is left out. *)
Definition parsed {A} (f : A -> stacktrace) (r : res (A * str)) : res (option stacktrace) := do (x, _) <- r; Ok (Some (f x)).
Definition contents_or_fail (d : directory) (name : str) : res str := match file_contents d name with Some s => Ok s | None => Fail end.
Definition stacktrace_from_dir (type : nat) (d : directory) : res (option stacktrace) :=
  if Nat.eqb type REPORT_CORE then
    do text <- contents_or_fail d (L "core_backtrace");
    do s <- sr_core_stacktrace_from_json_text text; Ok (Some (SCore s))
  else if Nat.eqb type REPORT_PYTHON then
    do text <- contents_or_fail d (L "backtrace"); parsed SPython (sr_python_stacktrace_parse text)
  else if Nat.eqb type REPORT_KERNELOOPS then
    do kernel <- contents_or_fail d (L "kernel");
    do text <- contents_or_fail d (L "backtrace");
    do (s, _) <- sr_koops_stacktrace_parse text;
    Ok (Some (SKoops (mk_koops_stacktrace (Some kernel) (ks_taint s) (ks_modules s) (ks_raw_oops s) (ks_frames s) (ks_reason s))))
  else if Nat.eqb type REPORT_JAVA then
    do text <- contents_or_fail d (L "backtrace"); parsed SJava (sr_java_stacktrace_parse text)
  else if Nat.eqb type REPORT_RUBY then
    do text <- contents_or_fail d (L "backtrace"); parsed SRuby (sr_ruby_stacktrace_parse text)
  else Ok None.
(* lib/abrt.c:595-845 sr_abrt_report_from_dir: the report (Fail is NULL) and whether an error message has been set.
   The strings of a new report come from the build configuration. *)
Definition sr_abrt_report_from_dir qsort (e : errno) (package_name package_version : str) (d : directory) : res report * bool :=
  match file_contents d (L "type") with
  | None => (Fail, true)
  | Some type_contents =>
    let type := sr_abrt_type_from_type type_contents in
    match sr_abrt_operating_system_from_dir d with
    | UB => (UB, false)
    | Fail => (Fail, true)
    | Ok os =>
      let component := get_component d in
      let message := os_message d || component_message d || packages_message d in
      match sr_abrt_rpm_packages_from_dir qsort d with
      | UB => (UB, message)
      | Fail => (Fail, message)
      | Ok packages =>
        match occurrences_from_dir e d with
        | None => (Fail, true)
        | Some serial =>
          match stacktrace_from_dir type d with
          | UB => (UB, message)
          | Fail => (Fail, true)
          | Ok stacktrace =>
            let r := sr_report_new package_name package_version in
            (Ok (mk_report (rep_version r) type (rep_reporter_name r) (rep_reporter_version r) (rep_user_root r) (rep_user_local r)
                   (Some os) component packages stacktrace (rep_auth r) serial), message)
          end
        end
      end
    end
  end.
(* lib/abrt.c:54-69 sr_abrt_print_report_from_dir: what is printed; Fail is the false return *)
Definition sr_abrt_print_report_from_dir qsort (e : errno) (package_name package_version : str) (d : directory) : res str :=
  do r <- fst (sr_abrt_report_from_dir qsort e package_name package_version d);
  do json <- sr_report_to_json r; Ok (json ++ [nl]).
(* lib/abrt.c:864-869 sr_abrt_type_from_analyzer, without the warning *)
Definition sr_abrt_type_from_analyzer (analyzer : str) : nat := sr_abrt_type_from_type analyzer.
End Texts.

(** ** Core stack traces *)
(* lib/abrt.c:79-84 one frame *)
Definition fulfill_frame (f : core_frame) : core_frame :=
  match cf_file_name f, cf_function_name f with
  | None, Some n => if str_eqb (L "__kernel_vsyscall") n
                    then mk_core_frame (cf_address f) (cf_build_id f) (cf_build_id_offset f) (cf_function_name f) (Some (L "kernel")) (cf_fingerprint f) (cf_fingerprint_hashed f)
                    else f
  | _, _ => f
  end.
(* lib/abrt.c:71-89 fulfill_missing_values *)
Definition fulfill_missing_values (s : core_stacktrace) : core_stacktrace :=
  mk_core_stacktrace (cs_signal s) (cs_executable s) (cs_crash_thread s)
    (map (fun t => mk_core_thread (map fulfill_frame (ct_frames t))) (cs_threads s)) (cs_only_crash_thread s).
Section Core.
Variable addrmodule : Z -> option module.
Variable cxa_demangle : str -> option str.
Variable dump : option core_dump.          (* the file "coredump" of the directory *)
Variable realpath : str -> option str.     (* libc realpath; None is NULL *)
(* lib/core_unwind.c:423-500 sr_core_stacktrace_from_gdb with opening the core dump and parsing *)
Definition core_stacktrace_from_gdb (gdb_output exe_file : str) : res core_stacktrace :=
  match dump with
  | None => Fail
  | Some c =>
    do (g, _) <- sr_gdb_stacktrace_parse gdb_output;
    Ok (sr_core_stacktrace_from_gdb addrmodule cxa_demangle g (cd_segments c) (realpath exe_file))
  end.
(* lib/abrt.c:91-134 create_core_stacktrace: the states of the file "core_backtrace" and the result *)
Definition create_core_stacktrace (w : writing) (d : directory) (old : disk) (gdb_output : option str) : res (list disk * bool) :=
  match file_contents d (L "executable") with
  | None => Ok ([old], false)
  | Some executable =>
    match (match gdb_output with
           | Some g => core_stacktrace_from_gdb g executable
           | None => sr_parse_coredump addrmodule cxa_demangle dump (Some executable)
           end) with
    | UB => UB
    | Fail => Ok ([old], false)
    | Ok s => Ok (sr_string_to_file w old (core_stacktrace_to_json (fulfill_missing_values s) ++ [nl]))
    end
  end.
(* lib/abrt.c:136-149 sr_abrt_create_core_stacktrace_from_gdb *)
Definition sr_abrt_create_core_stacktrace_from_gdb (w : writing) (d : directory) (old : disk) (gdb_output : option str) : res (list disk * bool) :=
  match gdb_output with
  | None => Ok ([old], false)
  | Some g => create_core_stacktrace w d old (Some g)
  end.
(* lib/abrt.c:151-157 sr_abrt_create_core_stacktrace *)
Definition sr_abrt_create_core_stacktrace (w : writing) (d : directory) (old : disk) : res (list disk * bool) :=
  create_core_stacktrace w d old None.
(* lib/abrt.c:166-202 sr_abrt_get_core_stacktrace_from_core_hook_generate, with its error message.  The functions
   before and after it (prepare, and the one calling both) only pass the state on. *)
Definition sr_abrt_get_core_stacktrace_from_core_hook_generate (attach : bool) (t : unwound) (executable : option str) (signum : Z)
  : res str * bool :=
  match sr_core_stacktrace_from_core_hook_generate addrmodule cxa_demangle attach t executable signum with
  | (Ok s, message) => (Ok (core_stacktrace_to_json (fulfill_missing_values s) ++ [nl]), message)
  | (Fail, message) => (Fail, message)
  | (UB, message) => (UB, message)
  end.
End Core.
