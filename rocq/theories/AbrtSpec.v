(** * What a report made from a problem directory holds. *)
From Verif Require Import Base Types UtilsModel JsonSpec TextModel RpmModel SystemModel SystemSpec ReportModel JsonTypesModel JsonTypesSpec
  ReportSpec PyParseSpec RubyParseSpec JavaParseSpec KoopsModel KoopsSpec UnwindModel FileModel FileSpec AbrtModel.
Open Scope nat_scope.

(** The JSON library understands a text: it gives the value the text denotes. *)
Definition understands (tokener : str -> option json) (text : str) : Prop := forall v, json_text v text -> tokener text = Some v.

(** ** Stack traces *)
(** The stack trace of a directory for a report of the given type: core (1) from JSON, python (2), java (4) and ruby
    (6) from the file backtrace, kerneloops (3) from the files backtrace and kernel; reports of other types have none. *)
Definition holds_trace (tokener : str -> option json) (d : directory) (type : nat) (st : option stacktrace) : Prop :=
  match st with
  | Some (SCore s) => type = 1 /\ exists text v, d (L "core_backtrace") = Contents text /\ tokener text = Some v /\ reads_core v s
  | Some (SPython s) => type = 2 /\ exists text rest, d (L "backtrace") = Contents text /\ py_text text s rest
  | Some (SKoops s) => type = 3 /\ exists kernel text reason, d (L "kernel") = Contents kernel /\ d (L "backtrace") = Contents text /\
      ks_version s = Some kernel /\ ks_raw_oops s = Some text /\ ks_taint s = snd (parse_taint_flags text no_taint) /\
      ks_reason s = Some reason /\ oops_text text (ks_frames s) (ks_modules s) reason
  | Some (SJava s) => type = 4 /\ exists text rest t, d (L "backtrace") = Contents text /\ java_thread_text text t rest /\ vs_threads s = [t]
  | Some (SRuby s) => type = 6 /\ exists text, d (L "backtrace") = Contents text /\ ruby_text text s
  | None => ~ In type [1; 2; 3; 4; 6]
  | _ => False
  end.
(** The component: the file of that name, or what the program is called. *)
Definition component_of (d : directory) (c : option str) : Prop :=
  match c with
  | Some c => d (L "package") <> Missing /\ d (L "component") = Contents c \/
              d (L "package") = Missing /\ exists path base, d (L "executable") = Contents path /\ base_name path base /\ c = base ++ L "-unpackaged"
  | None => d (L "package") <> Missing /\ (forall c, d (L "component") <> Contents c) \/
            d (L "package") = Missing /\ (forall c, d (L "executable") <> Contents c)
  end.
(** The parts of a report; operating system and packages are what the functions for them give (C58). *)
Definition describes tokener qsort (e : errno) (package_name package_version : str) (d : directory) (r : report) : Prop :=
  (exists t, d (L "type") = Contents t /\ abrt_type t (rep_type r)) /\
  (exists os, sr_abrt_operating_system_from_dir d = Ok os /\ rep_os r = Some os) /\
  component_of d (rep_component r) /\
  sr_abrt_rpm_packages_from_dir qsort d = Ok (rep_packages r) /\
  (exists t, d (L "count") = Contents t /\ whole_number t (rep_serial r) /\ (0 <= rep_serial r < 4294967296)%Z /\ (rep_serial r = 0%Z -> e = NoError)) /\
  holds_trace tokener d (rep_type r) (rep_stacktrace r) /\
  rep_version r = 2%Z /\ rep_reporter_name r = Some package_name /\ rep_reporter_version r = Some package_version /\
  rep_user_root r = false /\ rep_user_local r = true /\ rep_auth r = [].

(** ** Core stack traces *)
(** The missing file name of kernel frames. *)
Definition filled_frame (f g : core_frame) : Prop :=
  cf_address g = cf_address f /\ cf_build_id g = cf_build_id f /\ cf_build_id_offset g = cf_build_id_offset f /\
  cf_function_name g = cf_function_name f /\ cf_fingerprint g = cf_fingerprint f /\ cf_fingerprint_hashed g = cf_fingerprint_hashed f /\
  (cf_file_name f = None /\ cf_function_name f = Some (L "__kernel_vsyscall") /\ cf_file_name g = Some (L "kernel") \/
   ~ (cf_file_name f = None /\ cf_function_name f = Some (L "__kernel_vsyscall")) /\ cf_file_name g = cf_file_name f).
Definition filled (s t : core_stacktrace) : Prop :=
  cs_signal t = cs_signal s /\ cs_executable t = cs_executable s /\ cs_crash_thread t = cs_crash_thread s /\
  cs_only_crash_thread t = cs_only_crash_thread s /\
  Forall2 (fun a b => Forall2 filled_frame (ct_frames a) (ct_frames b)) (cs_threads s) (cs_threads t).
(** A directory after one of its files was written: what reading that file gives (C66). *)
Definition file_of (st : disk) : file :=
  match st with
  | None => Missing
  | Some bytes => if (20000000 <? N.of_nat (length bytes))%N then Unreadable else Contents (c_string bytes)
  end.
Definition with_file (d : directory) (name : str) (f : file) : directory := fun n => if str_eqb n name then f else d n.
(** The stack trace of the directory's core dump, made with the program named in the file executable: by unwinding, or
    from a text gdb printed (C65). *)
Definition made (addrmodule : Z -> option module) (cxa_demangle : str -> option str) (dump : option core_dump) (realpath : str -> option str)
           (d : directory) (gdb_output : option str) (s : core_stacktrace) : Prop :=
  exists executable, d (L "executable") = Contents executable /\
  match gdb_output with
  | Some g => core_stacktrace_from_gdb addrmodule cxa_demangle dump realpath g executable = Ok s
  | None => sr_parse_coredump addrmodule cxa_demangle dump (Some executable) = Ok s
  end.
(** The text of the file core_backtrace. *)
Definition file_text (t : core_stacktrace) : str := core_stacktrace_to_json t ++ [nl].
