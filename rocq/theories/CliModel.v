(** * The command line program (satyr.c). *)
From Verif Require Import Base Types UtilsModel JsonSpec JsonTypesModel RpmModel SystemModel ReportModel
  PyParseModel RubyParseModel JavaParseModel JsParseModel KoopsModel GdbParseModel GdbLibModel UnwindModel FileModel NormModel TextModel AbrtModel.
Open Scope nat_scope.

(* What a run leaves behind: the bytes of the standard output, what is said on the standard error output, the exit
   status, and for every file opened for writing its name and its states.  The texts of the library's own error
   messages are not modelled: [Explained p] is the text p, such a message and a newline.  The warnings of the library
   are left out. *)
Inductive said := Line (text : str) | Explained (prefix : str).
Record outcome := mk_outcome { o_out : str; o_err : list said; o_status : nat; o_files : list (str * list disk) }.
(* What the program finds outside: problem directories by name, errno as left by earlier calls, what open_coredump
   says of the core dump in a directory, files to read, the answers to writing a file and its state before, live
   processes, localtime, and the name strftime makes (None is 0). *)
Record machine := mk_machine {
  m_dir : str -> directory; m_errno : errno; m_dump : str -> option core_dump;
  m_reading : str -> reading; m_writing : str -> writing; m_disk : str -> disk;
  m_hook : Z -> str -> Z -> option core_stacktrace;
  m_localtime : bool; m_filename : option str }.

(* libgen.h basename, as POSIX has it *)
Fixpoint strip_slashes (r : str) : str := match r with c :: t => if Ascii.eqb c "/" then strip_slashes t else r | [] => [] end.
Definition basename (path : str) : str :=
  match path with
  | [] => L "."
  | _ => match strip_slashes (rev path) with
         | [] => L "/"
         | r => rev (fst (span (fun c => negb (Ascii.eqb c "/")) r))
         end
  end.

Section Program.
Variable tokener : str -> option json.
Variable qsort : (rpm_package -> rpm_package -> Z) -> list rpm_package -> list rpm_package.
Variable sha1 : str -> str.
Variable addrmodule : Z -> option module.
Variable cxa_demangle : str -> option str.
Variable realpath : str -> option str.
Variables package_name package_version : str.
Variable m : machine.

(** ** Parsing by type *)
(* lib/generic_stacktrace.c:95-100 sr_stacktrace_parse with lines 77-93 stacktrace_parse_wrapper and the parse
   members of the dispatch tables (lib/core_stacktrace.c:53, lib/python_stacktrace.c:64, lib/koops_stacktrace.c:88,
   lib/java_stacktrace.c:47, lib/gdb_stacktrace.c:61, lib/ruby_stacktrace.c:63, lib/js_stacktrace.c:65).  Fail is NULL,
   with a message.  The assertion of DISPATCH fails for another type. *)
Definition read_all {A} (f : A -> stacktrace) (r : res (A * str)) : res stacktrace := do (x, _) <- r; Ok (f x).
Definition sr_stacktrace_parse (type : nat) (text : str) : res stacktrace :=
  match type with
  | 1 => do s <- sr_core_stacktrace_from_json_text tokener text; Ok (SCore s)
  | 2 => read_all SPython (sr_python_stacktrace_parse text)
  | 3 => read_all SKoops (sr_koops_stacktrace_parse text)
  | 4 => read_all SJava (sr_java_stacktrace_parse text)
  | 5 => read_all SGdb (sr_gdb_stacktrace_parse text)
  | 6 => read_all SRuby (sr_ruby_stacktrace_parse text)
  | 7 => read_all SJs (sr_js_stacktrace_parse text)
  | _ => UB
  end.

Section Named.
Variable name : str.    (* g_program_name *)
(* satyr.c:58-64 short_usage_and_exit, after what has been said on the standard error output *)
Definition usage_line : str := L "Usage: " ++ name ++ L " COMMAND [OPTION...]" ++ [nl].
Definition short_usage : str := usage_line ++ L "Try `" ++ name ++ L " --help' or `" ++ name ++ L " --usage' for more information." ++ [nl].
Definition short_usage_and_exit (err : list said) : res outcome := Ok (mk_outcome short_usage err 1 []).
(* exit(1) with something on the standard error output, and a normal end with something on the standard output *)
Definition fail (err : list said) : res outcome := Ok (mk_outcome [] err 1 []).
Definition success (out : str) : res outcome := Ok (mk_outcome out [] 0 []).
(* satyr.c:45-56 help *)
Definition help : str :=
  usage_line ++ name ++ L " -- Automatic problem management with anonymous reports" ++ [nl; nl]
  ++ L "The following commands are available:" ++ [nl]
  ++ L "   abrt-print-report-from-dir   Create report from an ABRT directory" ++ [nl]
  ++ L "   abrt-report-dir              Create report from an ABRT directory and" ++ [nl]
  ++ L "                                send it to a server" ++ [nl]
  ++ L "   abrt-create-core-stacktrace  Create core stacktrace from an ABRT directory" ++ [nl]
  ++ L "   debug                        Commands for debugging and development support" ++ [nl].
(* satyr.c:66-74 usage *)
Definition usage : str :=
  L "Usage: " ++ name ++ L " --version" ++ [nl]
  ++ L "Usage: " ++ name ++ L " abrt-print-report-from-dir DIR [OPTION...]" ++ [nl]
  ++ L "Usage: " ++ name ++ L " abrt-report-dir DIR URL [OPTION...]" ++ [nl]
  ++ L "Usage: " ++ name ++ L " abrt-create-core-stacktrace DIR [OPTION...]" ++ [nl]
  ++ L "Usage: " ++ name ++ L " debug COMMAND [OPTION...]" ++ [nl].
(* satyr.c:76-80 version; PACKAGE_VERSION is also in the reports *)
Definition version : str := L "Satyr version " ++ package_version ++ [nl].

(* satyr.c:82-102 abrt_print_report_from_dir.  The pointer printed at line 98 has no value when the library has not
   set it. *)
Definition abrt_print_report_from_dir (args : list str) : res outcome :=
  match args with
  | [] => short_usage_and_exit [Line (L "Missing ABRT problem directory path.")]
  | dir :: _ =>
    match sr_abrt_print_report_from_dir tokener qsort (m_errno m) package_name package_version (m_dir m dir) with
    | Ok text => success text
    | Fail => if snd (sr_abrt_report_from_dir tokener qsort (m_errno m) package_name package_version (m_dir m dir))
              then fail [Explained []] else UB
    | UB => UB
    end
  end.
(* satyr.c:104-108 abrt_report_dir *)
Definition abrt_report_dir : res outcome := Ok (mk_outcome [] [Line (L "Not implemented.")] 0 []).
(* satyr.c:110-131 abrt_create_core_stacktrace; the library always sets the message when it fails *)
Definition abrt_create_core_stacktrace (args : list str) : res outcome :=
  match args with
  | [] => short_usage_and_exit [Line (L "Missing ABRT problem directory path.")]
  | dir :: _ =>
    let file := sr_build_path dir [L "core_backtrace"] in
    do (states, ok) <- sr_abrt_create_core_stacktrace addrmodule cxa_demangle (m_dump m dir) realpath (m_writing m file) (m_dir m dir) (m_disk m file);
    Ok (if ok then mk_outcome [] [] 0 [(file, states)] else mk_outcome [] [Explained []] 1 [(file, states)])
  end.

(* satyr.c:155-195 the lines of the file.  What sr_skip_whitespace returns is not used (lines 164, 172, 180).  The
   loops stop at a character or at the end of the text; [fuel] bounds the outer one, running out of it is UB. *)
Fixpoint skip_line (s : str) : str := match s with [] => [] | c :: r => if Ascii.eqb c nl then r else skip_line r end.
Fixpoint normalize_frames (fuel : nat) (cur : str) : res (list gdb_frame) :=
  match cur with
  | [] => Ok []
  | _ =>
    match fuel with
    | 0 => UB
    | S fuel =>
      let '(function_name, cur) := span (fun c => negb (Ascii.eqb c " ")) cur in
      let '(library_name, cur) := span (fun c => negb (Ascii.eqb c nl)) cur in
      let '(source_file, _) := span (fun c => negb (Ascii.eqb c nl)) cur in
      let f := gdb_frame_new in
      do rest <- normalize_frames fuel (skip_line cur);
      Ok (mk_gdb_frame (Some function_name) (gf_function_type f) (gf_number f) (Some source_file) (gf_source_line f)
            (gf_signal_handler_called f) (gf_address f) (Some library_name) :: rest)
    end
  end.
(* satyr.c:133-205 debug_normalize *)
Definition debug_normalize (args : list str) : res outcome :=
  match args with
  | [] => short_usage_and_exit [Line (L "Missing file name.")]
  | file :: _ =>
    match sr_file_to_string (m_reading m file) with
    | None => fail [Explained []]
    | Some text =>
      do frames <- normalize_frames (length text) text;
      success (sr_gdb_thread_append_to_str false (sr_normalize_gdb_thread (mk_gdb_thread (gt_number gdb_thread_new) (gt_tid gdb_thread_new) frames)) ++ [nl])
    end
  end.
(* satyr.c:207-271 debug_duphash.  What is printed before a failure of the second call is kept. *)
Definition debug_duphash (args : list str) : res outcome :=
  match args with
  | type_name :: file :: more =>
    let type := sr_report_type_from_string (Some type_name) in
    if Nat.eqb type 0 then fail [Line (L "Invalid report type " ++ type_name)]
    else
      match sr_file_to_string (m_reading m file) with
      | None => fail [Explained []]
      | Some text =>
        match sr_stacktrace_parse type text with
        | UB => UB
        | Fail => fail [Explained []]
        | Ok stacktrace =>
          match sr_stacktrace_find_crash_thread stacktrace with
          | None => fail [Line (L "Cannot find crash thread")]
          | Some thread =>
            let component := match more with c :: _ => Some c | [] => None end in
            do cleartext <- sr_thread_get_duphash sha1 thread 3 component 2;
            match cleartext with
            | None => fail [Line (L "Computing duphash failed")]
            | Some cleartext =>
              let printed := L "Cleartext:" ++ [nl] ++ cleartext ++ [nl] in
              do hash <- sr_thread_get_duphash sha1 thread 3 component 1;
              match hash with
              | None => Ok (mk_outcome printed [Line (L "Computing duphash failed")] 1 [])
              | Some hash => success (printed ++ L "Hash: " ++ hash ++ [nl])
              end
            end
          end
        end
      end
  | _ => short_usage_and_exit [Line (L "Usage: " ++ name ++ L " debug duphash TYPE FILE [COMPONENT]")]
  end.

(* strtoul(s, &end, 10) and *end: the value and what follows; nothing is skipped when there are no digits *)
Definition strtoul_end (s : str) : N * str := match strtoul10 s with Some (v, _, rest) => (v, rest) | None => (0%N, s) end.
(* an unsigned long as an argument of the types pid_t and int *)
Definition to_int (v : N) : Z := let w := (Z.of_N v mod 4294967296)%Z in if (w <? 2147483648)%Z then w else (w - 4294967296)%Z.
(* satyr.c:273-347 debug_unwind_from_hook; perror adds the text of errno *)
Definition debug_unwind_from_hook (args : list str) : res outcome :=
  match args with
  | [executable; tid_text; signal_text] =>
    let '(tid, end1) := strtoul_end tid_text in
    if negb (Nat.eqb (length end1) 0) then fail [Line (L "Wrong tid")]
    else
      let '(signum, end2) := strtoul_end signal_text in
      if negb (Nat.eqb (length end2) 0) then fail [Line (L "Wrong signal number")]
      else
        match m_hook m (to_int tid) executable (to_int signum) with
        | None => fail [Explained (L "Unwind failed: ")]
        | Some s =>
          if negb (m_localtime m) then fail [Explained (L "localtime: ")]
          else
            match m_filename m with
            | None => fail [Line (L "stftime failed")]
            | Some file =>
              let '(states, ok) := sr_string_to_file (m_writing m file) (m_disk m file) (core_stacktrace_to_json s ++ [nl]) in
              Ok (if ok then mk_outcome [] [] 0 [(file, states)]
                  else mk_outcome [] [Explained (L "Failed to write stacktrace: ")] 1 [(file, states)])
            end
        end
  | _ => fail [Line (L "Wrong number of arguments."); Line (L "Usage: satyr debug unwind-from-hook <executable> <tid> <signal>")]
  end.
(* satyr.c:349-371 debug *)
Definition debug (args : list str) : res outcome :=
  match args with
  | [] => short_usage_and_exit [Line (L "Missing debug command.")]
  | sub :: more =>
    if str_eqb sub (L "normalize") then debug_normalize more
    else if str_eqb sub (L "duphash") then debug_duphash more
    else if str_eqb sub (L "unwind-from-hook") then debug_unwind_from_hook more
    else short_usage_and_exit [Line (L "Unknown debug subcommand.")]
  end.
End Named.

(* satyr.c:373-403 main.  Without argv[0] the strcmp at line 381 reads past the end of argv. *)
Definition main (argv : list str) : res outcome :=
  match argv with
  | [] => UB
  | [path] => short_usage_and_exit (basename path) []
  | path :: command :: args =>
    let name := basename path in
    if str_eqb command (L "--help") then success (help name)
    else if str_eqb command (L "--usage") then success (usage name)
    else if str_eqb command (L "--version") then success version
    else if str_eqb command (L "abrt-print-report-from-dir") then abrt_print_report_from_dir name args
    else if str_eqb command (L "abrt-report-dir") then abrt_report_dir
    else if str_eqb command (L "abrt-create-core-stacktrace") then abrt_create_core_stacktrace name args
    else if str_eqb command (L "debug") then debug name args
    else short_usage_and_exit name [Line (L "Unknown command.")]
  end.
End Program.
