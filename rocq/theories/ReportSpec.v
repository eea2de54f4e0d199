(** * What reports, packages and operating systems look like in JSON, and what comes back. *)
From Verif Require Import Base Types UtilsSpec JsonSpec JsonTypesSpec NormSpec NormTables TextModel SystemModel SystemSpec ReportModel.
Open Scope Z_scope.

(** ** Operating systems *)
Definition os_safe (os : operating_system) : Prop :=
  opt_safe (os_name os) /\ opt_safe (os_version os) /\ opt_safe (os_architecture os) /\ opt_safe (os_cpe os) /\
  opt_safe (os_desktop os) /\ opt_safe (os_variant os).
(** everything but the CPE comes back *)
Definition os_as_read (os : operating_system) : operating_system :=
  mk_os (os_name os) (os_version os) (os_architecture os) None (clip64 (os_uptime os)) (os_desktop os) (os_variant os).
Definition os_ok (os : operating_system) : Prop := os_safe os /\ 0 <= os_uptime os < 2 ^ 63 /\ os_cpe os = None.
(** an optional member that is not a string counts as missing *)
Definition reads_optional (o : list (str * json)) (k : str) (r : option str) : Prop :=
  match jget k o with Some (JStr s) => r = Some s | _ => r = None end.
Definition reads_os (v : json) (os : operating_system) : Prop :=
  exists o, v = JObj o /\ reads_string o (L "name") (os_name os) /\ reads_string o (L "version") (os_version os) /\
    reads_string o (L "architecture") (os_architecture os) /\ reads_u64 o (L "uptime") 0 (os_uptime os) /\
    reads_optional o (L "desktop") (os_desktop os) /\ reads_optional o (L "variant") (os_variant os) /\ os_cpe os = None.

(** ** Packages *)
Definition package_safe (p : rpm_package) : Prop :=
  opt_safe (rp_name p) /\ opt_safe (rp_version p) /\ opt_safe (rp_release p) /\ opt_safe (rp_architecture p).
Definition package_range (p : rpm_package) : Prop := u32 (rp_epoch p) /\ u64 (rp_install_time p).
(** everything but the consistency comes back *)
Definition package_as_read (p : rpm_package) : rpm_package :=
  mk_rpm_package (rp_name p) (clip32 (rp_epoch p)) (rp_version p) (rp_release p) (rp_architecture p)
    (clip64 (rp_install_time p)) (rp_role p) [].
Definition package_ok (p : rpm_package) : Prop :=
  package_safe p /\ 0 <= rp_epoch p < 2 ^ 31 /\ 0 <= rp_install_time p < 2 ^ 63 /\ rp_consistency p = [].
Definition reads_package (v : json) (p : rpm_package) : Prop :=
  exists o, v = JObj o /\ reads_string o (L "name") (rp_name p) /\ reads_string o (L "version") (rp_version p) /\
    reads_string o (L "release") (rp_release p) /\ reads_string o (L "architecture") (rp_architecture p) /\
    reads_u32 o (L "epoch") 0 (rp_epoch p) /\ reads_u64 o (L "install_time") 0 (rp_install_time p) /\
    ((jget (L "package_role") o = None /\ rp_role p = ROLE_UNKNOWN) \/
     (jget (L "package_role") o = Some (JStr (L "affected")) /\ rp_role p = ROLE_AFFECTED)) /\ rp_consistency p = [].

(** ** Reasons *)
(** The frame a reason speaks of must have a file name (Python: the last one; Ruby and JavaScript:
    the first one). *)
Definition reason_defined (s : stacktrace) : Prop :=
  match s with
  | SPython s => forall l f, ps_frames s = l ++ [f] -> pf_file_name f <> None
  | SRuby s => forall f l, rs_frames s = f :: l -> rf_file_name f <> None
  | SJs s => forall f l, js_frames s = f :: l -> jf_file_name f <> None
  | _ => True
  end.
(** [f] is the first element with property P, or there is none. *)
Definition first_such {A} (P : A -> Prop) (l : list A) (r : option A) : Prop :=
  match r with
  | Some f => exists pre post, l = pre ++ f :: post /\ P f /\ Forall (fun g => ~ P g) pre
  | None => Forall (fun g => ~ P g) l
  end.
Definition has_infix (big small : str) : Prop := exists a b, big = a ++ small ++ b.
Definition reason_says (s : stacktrace) (t : str) : Prop :=
  match s with
  | SCore s =>
    t = L "Program " ++ or_unknown (cs_executable s) ++ L " was terminated by signal " ++ dec (cs_signal s)
  | SPython s =>
    exists exc file line, t = exc ++ L " in " ++ file ++ L ":" ++ dec line /\
      (ps_exception_name s = Some exc \/ ps_exception_name s = None /\ exc = L "Unknown error") /\
      ((ps_frames s = [] /\ file = L "<unknown>" /\ line = 0) \/
       exists l f, ps_frames s = l ++ [f] /\ pf_file_name f = Some file /\ line = pf_file_line f)
  | SRuby s =>
    exists exc file line, t = exc ++ L " in " ++ file ++ L ":" ++ dec line /\
      (rs_exception_name s = Some exc \/ rs_exception_name s = None /\ exc = L "Unknown error") /\
      ((rs_frames s = [] /\ file = L "<unknown>" /\ line = 0) \/
       exists l f, rs_frames s = f :: l /\ rf_file_name f = Some file /\ line = rf_file_line f)
  | SJs s =>
    exists exc file line column, t = exc ++ L " at " ++ file ++ L ":" ++ dec line ++ L ":" ++ dec column /\
      (js_exception_name s = Some exc \/ js_exception_name s = None /\ exc = L "Error") /\
      ((js_frames s = [] /\ file = L "<unknown>" /\ line = 0 /\ column = 0) \/
       exists l f, js_frames s = f :: l /\ jf_file_name f = Some file /\ line = jf_file_line f /\ column = jf_line_column f)
  | SJava s =>
    exists exc file line, t = L "Exception " ++ exc ++ L " occurred in " ++ file ++ L ":" ++ dec line /\
      let frames := match vs_threads s with [] => [] | th :: _ => vt_frames th end in
      (exists r, first_such (fun f => vf_is_exception f = true /\ vf_name f <> None) frames r /\
         match r with Some f => vf_name f = Some exc | None => exc = L "<unknown>" end) /\
      ((exists l f, frames = l ++ [f] /\ vf_file_name f = Some file /\ line = vf_file_line f) \/
       ((frames = [] \/ exists l f, frames = l ++ [f] /\ vf_file_name f = None) /\ file = L "<unknown>" /\ line = 0))
  | SKoops s =>
    exists cut first, Forall2 cut_name (ks_frames s) cut /\ first_such (fun f => ~ koops_boring f) cut first /\
      let func := match first with
                  | Some f => match kf_function_name f with Some n => n | None => L "<unknown>" end
                  | None => L "<unknown>"
                  end in
      exists what,
        t = what ++ match first with
                    | Some f => match kf_module_name f with Some m => L " [" ++ m ++ L "]" | None => [] end
                    | None => []
                    end /\
        match ks_reason s with
        | None => what = L "Kernel oops in " ++ func
        | Some r =>
          (has_infix r (L "general protection fault: ") /\ what = L "general protection fault in " ++ func) \/
          (~ has_infix r (L "general protection fault: ") /\ has_infix r (L "kernel paging request at") /\
           what = L "kernel paging request at " ++ func) \/
          (~ has_infix r (L "general protection fault: ") /\ ~ has_infix r (L "kernel paging request at") /\ what = r)
        end
  | SGdb _ => False
  end.

(** ** Reports *)
(** the types whose reports are written with a stack trace, by their number *)
Definition stacktrace_type (s : stacktrace) : nat :=
  match s with
  | SCore _ => 1 | SPython _ => 2 | SKoops _ => 3 | SJava _ => 4 | SGdb _ => 5 | SRuby _ => 6 | SJs _ => 7
  end.
(** A text that can be put between quotes as it is. *)
Definition plain (s : str) : Prop := Forall (fun c : ascii => (32 <= code c)%N /\ c <> dquote /\ c <> backslash) s.
Definition plain_reporter (r : report) : Prop :=
  exists n v, rep_reporter_name r = Some n /\ rep_reporter_version r = Some v /\ plain n /\ plain v.
(** The value a report is written as: [reason] is the reason, [members] are the members of the stack
    trace's own JSON object. *)
Definition opt_member (k : str) (o : option str) : list (str * json) := match o with Some s => [(k, JStr s)] | None => [] end.
Definition os_value (os : operating_system) : json :=
  JObj (opt_member (L "name") (os_name os) ++ opt_member (L "version") (os_version os) ++
        opt_member (L "architecture") (os_architecture os) ++ opt_member (L "cpe") (os_cpe os) ++
        opt_member (L "desktop") (os_desktop os) ++ opt_member (L "variant") (os_variant os) ++
        (if os_uptime os =? 0 then [] else [(L "uptime", JInt (os_uptime os))])).
Definition package_value (p : rpm_package) : json :=
  JObj (opt_member (L "name") (rp_name p) ++ [(L "epoch", JInt (rp_epoch p))] ++
        opt_member (L "version") (rp_version p) ++ opt_member (L "release") (rp_release p) ++
        opt_member (L "architecture") (rp_architecture p) ++
        (if rp_install_time p =? 0 then [] else [(L "install_time", JInt (rp_install_time p))]) ++
        match rp_role p with ROLE_UNKNOWN => [] | ROLE_AFFECTED => [(L "package_role", JStr (L "affected"))] end).
Definition type_name (t : nat) : str :=
  match t with
  | 1%nat => L "core" | 2%nat => L "python" | 3%nat => L "kerneloops" | 4%nat => L "java" | 6%nat => L "ruby" | 7%nat => L "javascript"
  | _ => L "invalid"
  end.
Definition report_value (r : report) (reason : str) (members : list (str * json)) : json :=
  JObj ([(L "ureport_version", JInt (rep_version r)); (L "reason", JStr reason);
         (L "reporter", JObj (opt_member (L "name") (rep_reporter_name r) ++ opt_member (L "version") (rep_reporter_version r)))] ++
        (match rep_os r with Some os => [(L "os", os_value os)] | None => [] end) ++
        [(L "problem", JObj ([(L "type", JStr (type_name (rep_type r)))] ++ opt_member (L "component") (rep_component r) ++
           (if Nat.eqb (rep_type r) 3 then []
            else [(L "user", JObj [(L "root", JBool (rep_user_root r)); (L "local", JBool (rep_user_local r))])]) ++
           [(L "serial", JInt (rep_serial r))] ++ members));
         (L "packages", JArr (map package_value (rep_packages r)))] ++
        match rep_auth r with [] => [] | l => [(L "auth", JObj (map (fun e => (fst e, JStr (snd e))) l))] end).
(** The reason a report carries: that of its stack trace if reports of its type have one. *)
Definition report_reason (r : report) (reason : str) : Prop :=
  if existsb (Nat.eqb (rep_type r)) [1; 2; 3; 4; 6; 7]%nat
  then exists s, rep_stacktrace r = Some s /\ reason_defined s /\ reason_says s reason
  else reason = L "invalid".
(** The stack trace has a JSON object of its own, with at least one member. *)
Definition stacktrace_written (s : stacktrace) (members : list (str * json)) : Prop :=
  members <> [] /\ exists t, sr_stacktrace_to_json s = Some t /\ json_text (JObj members) t.
(** The parts that are written escaped can be carried by JSON. *)
Definition report_safe (r : report) : Prop :=
  (forall os, rep_os r = Some os -> os_safe os) /\ opt_safe (rep_component r) /\ Forall package_safe (rep_packages r) /\
  Forall (fun e => json_safe (fst e) /\ json_safe (snd e)) (rep_auth r).
Definition stacktrace_range (s : stacktrace) : Prop :=
  match s with
  | SCore s => core_range s | SPython s => python_range s | SKoops s => koops_range s | SJava s => java_range s
  | SRuby s => ruby_range s | SJs s => js_range s | SGdb _ => True
  end.
Definition report_range (r : report) : Prop :=
  u32 (rep_version r) /\ u32 (rep_serial r) /\ (forall os, rep_os r = Some os -> u64 (os_uptime os)) /\
  Forall package_range (rep_packages r) /\ (forall s, rep_stacktrace r = Some s -> stacktrace_range s).
Definition stacktrace_as_read (s : stacktrace) : stacktrace :=
  match s with
  | SCore s => SCore (core_as_read s) | SPython s => SPython (python_as_read s) | SKoops s => SKoops (koops_as_read s)
  | SJava s => SJava (java_as_read s) | SRuby s => SRuby (ruby_as_read s) | SJs s => SJs (js_as_read s) | SGdb s => SGdb s
  end.
(** Reports of the types core (1), python (2), kerneloops (3), java (4) and ruby (6) are read with
    their stack trace; javascript (7) without; others become invalid (0).  The user flags are lost. *)
Definition read_with_stacktrace (t : nat) : bool := existsb (Nat.eqb t) [1; 2; 3; 4; 6]%nat.
Definition report_as_read (r : report) : report :=
  mk_report (clip32 (rep_version r)) (if existsb (Nat.eqb (rep_type r)) [1; 2; 3; 4; 6; 7]%nat then rep_type r else 0%nat)
    (rep_reporter_name r) (rep_reporter_version r) false true (option_map os_as_read (rep_os r)) (rep_component r)
    (map package_as_read (rep_packages r))
    (if read_with_stacktrace (rep_type r) then option_map stacktrace_as_read (rep_stacktrace r) else None)
    (rep_auth r) (clip32 (rep_serial r)).
(** The stack trace is of the report's type, its modules fit, and no two authentication entries share a key. *)
Definition report_consistent (r : report) : Prop :=
  (forall s, rep_stacktrace r = Some s -> stacktrace_type s = rep_type r) /\
  (forall s, rep_stacktrace r = Some (SKoops s) -> koops_modules_fit s) /\
  NoDup (map fst (rep_auth r)).
(** A report nothing is lost of. *)
Definition stacktrace_ok (s : stacktrace) : Prop :=
  match s with
  | SCore s => core_ok s
  | SPython s => python_ok s /\ (ps_exception_name s <> None \/ ps_frames s <> [])
  | SKoops s => koops_ok s
  | SJava s => java_ok s
  | SRuby s => ruby_ok s /\ (rs_exception_name s <> None \/ rs_frames s <> [])
  | _ => False
  end.
Definition report_ok (r : report) : Prop :=
  (0 <= rep_version r < 2 ^ 31) /\ (0 <= rep_serial r < 2 ^ 31) /\ plain_reporter r /\
  rep_user_root r = false /\ rep_user_local r = true /\
  (forall os, rep_os r = Some os -> os_ok os) /\ opt_safe (rep_component r) /\ Forall package_ok (rep_packages r) /\
  Forall (fun e => json_safe (fst e) /\ json_safe (snd e)) (rep_auth r) /\ NoDup (map fst (rep_auth r)) /\
  exists s, rep_stacktrace r = Some s /\ stacktrace_type s = rep_type r /\ stacktrace_ok s /\ reason_defined s.

(** ** Reading any JSON value as a report *)
Definition reads_string_or (o : list (str * json)) (k dflt : str) (r : option str) : Prop :=
  (jget k o = None /\ r = Some dflt) \/ (exists s, jget k o = Some (JStr s) /\ r = Some s).
Definition reads_stacktrace (type : nat) (v : json) (s : stacktrace) : Prop :=
  match s with
  | SCore x => type = 1%nat /\ reads_core v x
  | SPython x => type = 2%nat /\ reads_python v x
  | SKoops x => type = 3%nat /\ reads_koops v x
  | SJava x => type = 4%nat /\ reads_java v x
  | SRuby x => type = 6%nat /\ reads_ruby v x
  | _ => False
  end.
(** the type a text stands for *)
Definition type_called (name : option str) (t : nat) : Prop :=
  (exists n, In (t, n) type_names /\ name = Some n) \/ (t = 0%nat /\ forall u n, In (u, n) type_names -> name <> Some n).
(** the different keys of an object, each where it first appears *)
Fixpoint keys (l : list (str * json)) : list str :=
  match l with [] => [] | (k, _) :: r => k :: filter (fun x => negb (str_eqb k x)) (keys r) end.
(** the members that are strings *)
Definition string_members (o : list (str * json)) : list (str * str) :=
  flat_map (fun k => match jget k o with Some (JStr s) => [(k, s)] | _ => [] end) (keys o).
(** The flags of the user are looked for in the outermost object. *)
Definition reads_problem (o po : list (str * json)) (r : report) : Prop :=
  (exists name, reads_string po (L "type") name /\ type_called name (rep_type r)) /\
  reads_string po (L "component") (rep_component r) /\
  ((jget (L "user") o = None /\ rep_user_root r = false /\ rep_user_local r = true) \/
   exists uo, jget (L "user") o = Some (JObj uo) /\ reads_bool uo (L "root") false (rep_user_root r) /\
              reads_bool uo (L "local") true (rep_user_local r)) /\
  reads_u32 po (L "serial") 0 (rep_serial r) /\
  match rep_stacktrace r with
  | Some s => reads_stacktrace (rep_type r) (JObj po) s
  | None => forall s, ~ reads_stacktrace (rep_type r) (JObj po) s
  end.
Definition reads_report (package_name package_version : str) (v : json) (r : report) : Prop :=
  exists o, v = JObj o /\
    reads_u32 o (L "ureport_version") 2 (rep_version r) /\
    ((jget (L "reporter") o = None /\ rep_reporter_name r = Some package_name /\ rep_reporter_version r = Some package_version) \/
     exists ro, jget (L "reporter") o = Some (JObj ro) /\ reads_string_or ro (L "name") package_name (rep_reporter_name r) /\
                reads_string_or ro (L "version") package_version (rep_reporter_version r)) /\
    ((jget (L "os") o = None /\ rep_os r = None) \/
     exists j os, jget (L "os") o = Some j /\ reads_os j os /\ rep_os r = Some os) /\
    ((jget (L "packages") o = None /\ rep_packages r = []) \/
     exists l, jget (L "packages") o = Some (JArr l) /\ Forall2 reads_package l (rep_packages r)) /\
    ((jget (L "problem") o = None /\ rep_type r = 0%nat /\ rep_component r = None /\ rep_user_root r = false /\ rep_user_local r = true /\
      rep_serial r = 0 /\ rep_stacktrace r = None) \/
     exists po, jget (L "problem") o = Some (JObj po) /\ reads_problem o po r) /\
    ((jget (L "auth") o = None /\ rep_auth r = []) \/
     exists ao, jget (L "auth") o = Some (JObj ao) /\ rep_auth r = string_members ao).
(** No kernel oops with a list of modules that is too long or holds something else than texts. *)
Definition modules_readable (v : json) : Prop :=
  forall o po l, v = JObj o -> jget (L "problem") o = Some (JObj po) -> jget (L "modules") po = Some (JArr l) ->
    exists ms, l = map JStr ms /\ (length ms <= 127)%nat.
