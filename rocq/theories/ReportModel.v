(** * Reports (lib/report.c), and the JSON of packages (lib/rpm.c) and operating systems
      (lib/operating_system.c); reasons of stack traces. *)
From Verif Require Import Base Types UtilsModel JsonSpec JsonModel JsonTypesModel NormModel TextModel SystemModel.
Open Scope Z_scope.

(** ** Operating systems *)
(* lib/operating_system.c:66-126 sr_operating_system_to_json *)
Definition sr_operating_system_to_json (os : operating_system) : str :=
  close_object (
    fld_str (L "name") (os_name os) ++
    fld_str (L "version") (os_version os) ++
    fld_str (L "architecture") (os_architecture os) ++
    fld_str (L "cpe") (os_cpe os) ++
    fld_str (L "desktop") (os_desktop os) ++
    fld_str (L "variant") (os_variant os) ++
    (if 0 <? os_uptime os then fld (L "uptime") (dec (os_uptime os)) else [])).
(* lib/operating_system.c:144-147: the result of the optional members is not looked at; a member of
   another type leaves the destination NULL *)
Definition read_optional_string (o : list (str * json)) (k : str) : option str :=
  match json_read_string o k None with Ok r => r | _ => None end.
(* lib/operating_system.c:128-156 sr_operating_system_from_json *)
Definition sr_operating_system_from_json (root : json) : res operating_system :=
  match root with
  | JObj o =>
    do name <- json_read_string o (L "name") None;
    do version <- json_read_string o (L "version") None;
    do architecture <- json_read_string o (L "architecture") None;
    do uptime <- json_read_uint64 o (L "uptime") 0;
    Ok (mk_os name version architecture None uptime (read_optional_string o (L "desktop")) (read_optional_string o (L "variant")))
  | _ => Fail
  end.

(** ** Packages *)
(* lib/rpm.c:465-569 sr_rpm_package_to_json, not recursive (lines 493-565) *)
Definition rpm_package_to_json (p : rpm_package) : str :=
  close_object_unchecked (
    fld_str (L "name") (rp_name p) ++
    fld (L "epoch") (dec (rp_epoch p)) ++
    fld_str (L "version") (rp_version p) ++
    fld_str (L "release") (rp_release p) ++
    fld_str (L "architecture") (rp_architecture p) ++
    (if 0 <? rp_install_time p then fld (L "install_time") (dec (rp_install_time p)) else []) ++
    match rp_role p with
    | ROLE_UNKNOWN => []
    | ROLE_AFFECTED => fld (L "package_role") (L """affected""")
    end).
(* lib/rpm.c:469-489 the loop *)
Fixpoint package_items (first : bool) (l : list rpm_package) : str :=
  match l with
  | [] => []
  | p :: r => (if first then L "[ " else L ", ") ++ sr_indent_except_first_line (rpm_package_to_json p) 2 ++
              (match r with [] => [] | _ => [nl] end) ++ package_items false r
  end.
(* lib/rpm.c:463-569 sr_rpm_package_to_json, recursive *)
Definition rpm_packages_to_json (l : list rpm_package) : str := package_items true l ++ L " ]".
(* lib/rpm.c:571-619 single_rpm_package_from_json; Fail is NULL *)
Definition single_rpm_package_from_json (root : json) : res rpm_package :=
  match root with
  | JObj o =>
    do name <- json_read_string o (L "name") None;
    do version <- json_read_string o (L "version") None;
    do release <- json_read_string o (L "release") None;
    do architecture <- json_read_string o (L "architecture") None;
    do epoch <- json_read_uint32 o (L "epoch") 0;
    do install_time <- json_read_uint64 o (L "install_time") 0;
    do role <- match get_string_member o (L "package_role") with
               | None => Ok ROLE_UNKNOWN
               | Some r => do role <- r; if str_eqb role (L "affected") then Ok ROLE_AFFECTED else Fail
               end;
    Ok (mk_rpm_package name epoch version release architecture install_time role [])
  | _ => Fail
  end.
(* lib/rpm.c:621-662 sr_rpm_package_from_json, recursive; Fail is a negative result *)
Definition rpm_packages_from_json (root : json) : res (list rpm_package) :=
  match root with
  | JArr l => map_res single_rpm_package_from_json l
  | _ => Fail
  end.
(* lib/rpm.c:625-629 sr_rpm_package_from_json, not recursive: the result is always 0; None is NULL *)
Definition rpm_package_from_json (root : json) : res (option rpm_package) :=
  match single_rpm_package_from_json root with
  | Ok p => Ok (Some p)
  | Fail => Ok None
  | UB => UB
  end.

(** ** Reasons *)
(* %s of a pointer: NULL is UB *)
Definition percent_s (o : option str) : res str := match o with Some s => Ok s | None => UB end.
(* lib/core_stacktrace.c:381-387 sr_core_stacktrace_get_reason *)
Definition core_reason (s : core_stacktrace) : str :=
  L "Program " ++ or_unknown (cs_executable s) ++ L " was terminated by signal " ++ dec (cs_signal s).
(* the last element of a list *)
Fixpoint last_of {A} (l : list A) : option A :=
  match l with [] => None | [x] => Some x | _ :: r => last_of r end.
(* lib/python_stacktrace.c:325-346 sr_python_stacktrace_get_reason *)
Definition python_reason (s : python_stacktrace) : res str :=
  do fl <- match last_of (ps_frames s) with
           | None => Ok (L "<unknown>", 0)
           | Some f => do file <- percent_s (pf_file_name f); Ok (file, pf_file_line f)
           end;
  Ok (match ps_exception_name s with Some e => e | None => L "Unknown error" end ++ L " in " ++ fst fl ++ L ":" ++ dec (snd fl)).
(* lib/ruby_stacktrace.c:364-382 sr_ruby_stacktrace_get_reason *)
Definition ruby_reason (s : ruby_stacktrace) : res str :=
  do fl <- match rs_frames s with
           | [] => Ok (L "<unknown>", 0)
           | f :: _ => do file <- percent_s (rf_file_name f); Ok (file, rf_file_line f)
           end;
  Ok (match rs_exception_name s with Some e => e | None => L "Unknown error" end ++ L " in " ++ fst fl ++ L ":" ++ dec (snd fl)).
(* lib/js_stacktrace.c:352-371 sr_js_stacktrace_get_reason *)
Definition js_reason (s : js_stacktrace) : res str :=
  do fl <- match js_frames s with
           | [] => Ok (L "<unknown>", 0, 0)
           | f :: _ => do file <- percent_s (jf_file_name f); Ok (file, jf_file_line f, jf_line_column f)
           end;
  Ok (match js_exception_name s with Some e => e | None => L "Error" end ++ L " at " ++ fst (fst fl) ++ L ":" ++ dec (snd (fst fl)) ++ L ":" ++ dec (snd fl)).
(* lib/java_stacktrace.c:250-267 the loop: the name of the first exception, the file and line of the
   last frame *)
Fixpoint java_reason_loop (l : list java_frame) (exc : str) (exc_found : bool) : str * (str * Z) :=
  match l with
  | [] => (exc, (L "<unknown>", 0))
  | f :: r =>
    let '(exc, exc_found) := match vf_name f with
                             | Some n => if vf_is_exception f && negb exc_found then (n, true) else (exc, exc_found)
                             | None => (exc, exc_found)
                             end in
    match r with
    | [] => (exc, match vf_file_name f with Some file => (file, vf_file_line f) | None => (L "<unknown>", 0) end)
    | _ => java_reason_loop r exc exc_found
    end
  end.
(* lib/java_stacktrace.c:235-272 sr_java_stacktrace_get_reason *)
Definition java_reason (s : java_stacktrace) : str :=
  let '(exc, (file, line)) := match vs_threads s with
                              | [] => (L "<unknown>", (L "<unknown>", 0))
                              | t :: _ => java_reason_loop (vt_frames t) (L "<unknown>") false
                              end in
  L "Exception " ++ exc ++ L " occurred in " ++ file ++ L ":" ++ dec line.
(* lib/koops_stacktrace.c:759-791 sr_koops_stacktrace_get_reason.  The copy that is normalized has the
   same frames (C52). *)
Definition koops_reason (s : koops_stacktrace) : res str :=
  do frames <- sr_normalize_koops_frames (ks_frames s);
  let first := match frames with [] => None | f :: _ => Some f end in
  let func := match first with
              | Some f => match kf_function_name f with Some n => n | None => L "<unknown>" end
              | None => L "<unknown>"
              end in
  let result := match ks_reason s with
                | Some r => if NormModel.strstr r (L "general protection fault: ") then L "general protection fault in " ++ func
                            else if NormModel.strstr r (L "kernel paging request at") then L "kernel paging request at " ++ func
                            else r
                | None => L "Kernel oops in " ++ func
                end in
  Ok (result ++ match first with
                | Some f => match kf_module_name f with Some m => L " [" ++ m ++ L "]" | None => [] end
                | None => []
                end).
(* lib/generic_stacktrace.c:147-151 sr_stacktrace_get_reason; None is NULL (lib/gdb_stacktrace.c:66) *)
Definition sr_stacktrace_get_reason (s : stacktrace) : res (option str) :=
  match s with
  | SCore s => Ok (Some (core_reason s))
  | SPython s => do r <- python_reason s; Ok (Some r)
  | SKoops s => do r <- koops_reason s; Ok (Some r)
  | SJava s => Ok (Some (java_reason s))
  | SGdb _ => Ok None
  | SRuby s => do r <- ruby_reason s; Ok (Some r)
  | SJs s => do r <- js_reason s; Ok (Some r)
  end.
(* lib/generic_stacktrace.c:141-145 sr_stacktrace_to_json; None is NULL (lib/gdb_stacktrace.c:64) *)
Definition sr_stacktrace_to_json (s : stacktrace) : option str :=
  match s with
  | SCore s => Some (core_stacktrace_to_json s)
  | SPython s => Some (python_stacktrace_to_json s)
  | SKoops s => Some (koops_stacktrace_to_json s)
  | SJava s => Some (java_stacktrace_to_json s)
  | SGdb _ => None
  | SRuby s => Some (ruby_stacktrace_to_json s)
  | SJs s => Some (js_stacktrace_to_json s)
  end.

(** ** Reports *)
(* include/report.h:46-69 struct sr_report *)
Record report := mk_report {
  rep_version : Z;
  rep_type : nat;
  rep_reporter_name : option str;
  rep_reporter_version : option str;
  rep_user_root : bool;
  rep_user_local : bool;
  rep_os : option operating_system;
  rep_component : option str;
  rep_packages : list rpm_package;
  rep_stacktrace : option stacktrace;
  rep_auth : list (str * str);
  rep_serial : Z }.
(* lib/report.c:57-72 sr_report_init; the two strings come from the build configuration *)
Definition sr_report_new (package_name package_version : str) : report :=
  mk_report 2 REPORT_INVALID (Some package_name) (Some package_version) false true None None [] None [] 0.
(* lib/report.c:97-109 sr_report_add_auth *)
Definition sr_report_add_auth (r : report) (key value : str) : report :=
  mk_report (rep_version r) (rep_type r) (rep_reporter_name r) (rep_reporter_version r) (rep_user_root r) (rep_user_local r)
    (rep_os r) (rep_component r) (rep_packages r) (rep_stacktrace r) ((key, value) :: rep_auth r) (rep_serial r).
(* lib/report.c:111-124 dismantle_object; a failing assertion is UB *)
Definition dismantle_object (obj : option str) : res str :=
  match obj with
  | Some (c :: r) =>
    if Ascii.eqb c "{" && Ascii.eqb (last r nul) "}" then Ok (","%char :: removelast r) else UB
  | _ => UB
  end.
(* lib/report.c:126-169 problem_object_string *)
Definition problem_object_string (r : report) (report_type : str) : res str :=
  do stacktrace <- match rep_stacktrace r with
                   | None => Ok []
                   | Some s => dismantle_object (sr_stacktrace_to_json s)
                   end;
  Ok (L "{   ""type"": " ++ json_quoted report_type ++ nl ::
      fld_str (L "component") (rep_component r) ++
      (if Nat.eqb (rep_type r) REPORT_KERNELOOPS then []
       else L ",   ""user"": {   ""root"": " ++ json_bool (rep_user_root r) ++ nl ::
            L "            ,   ""local"": " ++ json_bool (rep_user_local r) ++ nl ::
            L "            }" ++ [nl]) ++
      fld (L "serial") (dec (rep_serial r)) ++
      stacktrace ++ L "}").
(* lib/report.c:264-284 the custom entries *)
Fixpoint auth_items (l : list (str * str)) : str :=
  match l with
  | [] => []
  | (k, v) :: r => L "            ,   " ++ json_quoted k ++ L ": " ++ json_quoted v ++ nl :: auth_items r
  end.
Definition auth_object (l : list (str * str)) : str :=
  match l with
  | [] => []
  | (k, v) :: r => L ",   ""auth"": {   " ++ json_quoted k ++ L ": " ++ json_quoted v ++ nl :: auth_items r ++ L "            } "
  end.
(* lib/report.c:181-201 type and reason *)
Definition type_and_reason (r : report) : res (str * str) :=
  if existsb (Nat.eqb (rep_type r)) [REPORT_CORE; REPORT_PYTHON; REPORT_KERNELOOPS; REPORT_JAVA; REPORT_RUBY; REPORT_JAVASCRIPT]
  then match rep_stacktrace r with
       | None => UB
       | Some s =>
         do reason <- sr_stacktrace_get_reason s;
         do reason <- percent_s reason;
         Ok (sr_report_type_to_string (rep_type r), reason)
       end
  else Ok (L "invalid", L "invalid").
(* lib/report.c:171-289 sr_report_to_json.  The reporter is written without escaping. *)
Definition sr_report_to_json (r : report) : res str :=
  do tr <- type_and_reason r;
  do name <- percent_s (rep_reporter_name r);
  do version <- percent_s (rep_reporter_version r);
  do problem <- problem_object_string r (fst tr);
  let reporter := L "{   ""name"": """ ++ name ++ L """" ++ nl :: L ",   ""version"": """ ++ version ++ L """" ++ nl :: L "}" in
  Ok (L "{   ""ureport_version"": " ++ dec (rep_version r) ++ nl ::
      fld (L "reason") (json_quoted (snd tr)) ++
      fld (L "reporter") (sr_indent_except_first_line reporter (length (L ",   ""reporter"": "))) ++
      (match rep_os r with
       | None => []
       | Some os => fld (L "os") (sr_indent_except_first_line (sr_operating_system_to_json os) (length (L ",   ""os"": ")))
       end) ++
      fld (L "problem") (sr_indent_except_first_line problem (length (L ",   ""problem"": "))) ++
      (match rep_packages r with
       | [] => fld (L "packages") (L "[]")
       | l => fld (L "packages") (sr_indent_except_first_line (rpm_packages_to_json l) (length (L ",   ""packages"": ")))
       end) ++
      auth_object (rep_auth r) ++ L "}").

(* lib/generic_stacktrace.c:102-106 sr_stacktrace_from_json for the types sr_report_from_json passes;
   None is NULL *)
Definition to_option {A B} (f : A -> B) (r : res A) : res (option B) :=
  match r with Ok x => Ok (Some (f x)) | Fail => Ok None | UB => UB end.
Definition sr_stacktrace_from_json (type : nat) (root : json) : res (option stacktrace) :=
  if Nat.eqb type REPORT_CORE then to_option SCore (core_stacktrace_from_json root)
  else if Nat.eqb type REPORT_PYTHON then to_option SPython (python_stacktrace_from_json root)
  else if Nat.eqb type REPORT_KERNELOOPS then to_option SKoops (koops_stacktrace_from_json root)
  else if Nat.eqb type REPORT_JAVA then to_option SJava (java_stacktrace_from_json root)
  else if Nat.eqb type REPORT_RUBY then to_option SRuby (ruby_stacktrace_from_json root)
  else if Nat.eqb type REPORT_JAVASCRIPT then to_option SJs (js_stacktrace_from_json root)
  else UB.

(* json-c: adding a member to an object replaces the value of an existing key in its place *)
Fixpoint json_object_add (k : str) (v : json) (l : list (str * json)) : list (str * json) :=
  match l with
  | [] => [(k, v)]
  | (k', v') :: r => if str_eqb k k' then (k', v) :: r else (k', v') :: json_object_add k v r
  end.
Definition object_entries (members : list (str * json)) : list (str * json) :=
  fold_left (fun l m => json_object_add (fst m) (snd m) l) members [].
(* lib/report.c:424-440: from the last entry to the first, each string is put in front *)
Definition read_auth (members : list (str * json)) : list (str * str) :=
  fold_left (fun l m => match snd m with JStr s => (fst m, s) :: l | _ => l end) (rev (object_entries members)) [].

(* lib/report.c:314-448 sr_report_from_json; Fail is NULL.  A stack trace that cannot be read is
   left out (line 404). *)
Definition sr_report_from_json (package_name package_version : str) (root : json) : res report :=
  match root with
  | JObj o =>
    do version <- json_read_uint32 o (L "ureport_version") 2;
    do reporter <- match jget (L "reporter") o with
                   | None => Ok (Some package_name, Some package_version)
                   | Some (JObj ro) =>
                     do name <- json_read_string ro (L "name") (Some package_name);
                     do version <- json_read_string ro (L "version") (Some package_version);
                     Ok (name, version)
                   | Some _ => Fail
                   end;
    do os <- match jget (L "os") o with
             | None => Ok None
             | Some j => do os <- sr_operating_system_from_json j; Ok (Some os)
             end;
    do packages <- match jget (L "packages") o with
                   | None => Ok []
                   | Some j => rpm_packages_from_json j
                   end;
    do problem <- match jget (L "problem") o with
                  | None => Ok (REPORT_INVALID, None, (false, true), 0, None)
                  | Some (JObj po) =>
                    do type <- json_read_string po (L "type") None;
                    do component <- json_read_string po (L "component") None;
                    let type := sr_report_type_from_string type in
                    do user <- match jget (L "user") o with
                               | None => Ok (false, true)
                               | Some (JObj uo) =>
                                 do root <- json_read_bool uo (L "root") false;
                                 do local <- json_read_bool uo (L "local") true;
                                 Ok (root, local)
                               | Some _ => Fail
                               end;
                    do serial <- json_read_uint32 po (L "serial") 0;
                    do stacktrace <- (if existsb (Nat.eqb type) [REPORT_CORE; REPORT_PYTHON; REPORT_KERNELOOPS; REPORT_JAVA; REPORT_RUBY]
                                      then sr_stacktrace_from_json type (JObj po) else Ok None);
                    Ok (type, component, user, serial, stacktrace)
                  | Some _ => Fail
                  end;
    do auth <- match jget (L "auth") o with
               | None => Ok []
               | Some (JObj ao) => Ok (read_auth ao)
               | Some _ => Fail
               end;
    let '(type, component, user, serial, stacktrace) := problem in
    Ok (mk_report version type (fst reporter) (snd reporter) (fst user) (snd user) os component packages stacktrace auth serial)
  | _ => Fail
  end.
