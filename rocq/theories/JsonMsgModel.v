(** * Reading JSON, with the error messages.

      The readers of JsonTypesModel.v and ReportModel.v once more.  Every message that is set is kept, in order: the
      caller finds the last one in *error_message, the earlier ones are lost.  The caller passes a pointer that is not
      NULL, to a NULL pointer. *)
From Verif Require Import Base Types UtilsModel JsonSpec JsonModel JsonTypesModel SystemModel TextModel ReportModel.
Open Scope Z_scope.

(** A value; NULL or false; undefined behaviour. *)
Inductive told (A : Type) := Gives (a : A) (ms : list str) | Refuses (ms : list str) | Breaks.
Arguments Gives {A} a ms. Arguments Refuses {A} ms. Arguments Breaks {A}.
Definition after {A} (ms : list str) (x : told A) : told A :=
  match x with Gives a ns => Gives a (ms ++ ns) | Refuses ns => Refuses (ms ++ ns) | Breaks => Breaks end.
Definition then_ {A B} (x : told A) (f : A -> told B) : told B :=
  match x with Gives a ms => after ms (f a) | Refuses ms => Refuses ms | Breaks => Breaks end.
Notation "'ask' x <- e ; f" := (then_ e (fun x => f)) (at level 200, x pattern, e at level 100, f at level 200).
Definition give {A} (a : A) : told A := Gives a [].

(** ** json_utils.c *)
Inductive kind := KBool | KInt | KObject | KArray | KString.
(* json-c: json_object_is_type; NULL is of type null only *)
Definition json_object_is_type (j : json) (k : kind) : bool :=
  match j, k with
  | JBool _, KBool | JInt _, KInt | JObj _, KObject | JArr _, KArray | JStr _, KString => true
  | _, _ => false
  end.
(* json-c: json_type_to_name *)
Definition json_type_to_name (k : kind) : str :=
  match k with KBool => L "boolean" | KInt => L "int" | KObject => L "object" | KArray => L "array" | KString => L "string" end.
(* lib/json_utils.c:47-67 json_check_type *)
Definition json_check_type (j : json) (k : kind) (name : str) : told unit :=
  if json_object_is_type j k then give tt
  else Refuses [L "Invalid type of `" ++ name ++ L "`; `" ++ json_type_to_name k ++ L "` expected"].
(* lib/json_utils.c:20-38 DEFINE_JSON_READ *)
Definition read {A} (k : kind) (getter : json -> option A) (o : list (str * json)) (key_name : str) (dest : A) : told A :=
  match jget key_name o with
  | None => give dest
  | Some child =>
    ask _ <- json_check_type child k key_name;
    match getter child with Some a => give a | None => Breaks end
  end.
(* lib/json_utils.c:41-45 json_read_uint64, json_read_uint32, json_read_uint16, json_read_string, json_read_bool *)
Definition read_uint64 := read KInt as_uint64.
Definition read_uint32 := read KInt as_uint32.
Definition read_uint16 := read KInt as_uint16.
Definition read_string := read KString as_string.
Definition read_bool := read KBool as_bool.

(** ** Shapes the readers share *)
Fixpoint each {A} (f : json -> told A) (l : list json) : told (list A) :=
  match l with
  | [] => give []
  | j :: l => ask x <- f j; ask r <- each f l; give (x :: r)
  end.
(** if (!json_check_type(j, json_type_object, name)) return NULL *)
Definition members {A} (name : str) (j : json) (f : list (str * json) -> told A) : told A :=
  ask _ <- json_check_type j KObject name;
  match j with JObj o => f o | _ => Breaks end.
Definition elements {A} (name : str) (j : json) (f : list json -> told A) : told A :=
  ask _ <- json_check_type j KArray name;
  match j with JArr l => f l | _ => Breaks end.
(** if (json_object_object_get_ex(root, key, &x)) *)
Definition when {A} (o : list (str * json)) (key : str) (default : A) (f : json -> told A) : told A :=
  match jget key o with None => give default | Some j => f j end.
Definition string_of (name : str) (j : json) : told str :=
  ask _ <- json_check_type j KString name;
  match j with JStr s => give s | _ => Breaks end.
(** A name under one of two keys; the second makes it special. *)
Definition special (o : list (str * json)) (key special_key : str) : told (option str * bool) :=
  match jget key o with
  | Some j => ask s <- string_of key j; give (Some s, false)
  | None => when o special_key (None, false) (fun j => ask s <- string_of special_key j; give (Some s, true))
  end.
Definition array_of {A} (o : list (str * json)) (key : str) (f : json -> told A) : told (list A) :=
  when o key [] (fun j => elements key j (each f)).

(** ** Stack traces *)
(* lib/core_frame.c:242-267 sr_core_frame_from_json *)
Definition core_frame (root : json) : told Types.core_frame :=
  members (L "frame") root (fun o =>
    ask address <- read_uint64 o (L "address") ulong_max;
    ask build_id <- read_string o (L "build_id") None;
    ask build_id_offset <- read_uint64 o (L "build_id_offset") ulong_max;
    ask function_name <- read_string o (L "function_name") None;
    ask file_name <- read_string o (L "file_name") None;
    ask fingerprint <- read_string o (L "fingerprint") None;
    ask hashed <- read_bool o (L "fingerprint_hashed") true;
    give (mk_core_frame address build_id build_id_offset function_name file_name fingerprint hashed)).
(* lib/core_thread.c:183-222 sr_core_thread_from_json *)
Definition core_thread (root : json) : told Types.core_thread :=
  members (L "thread") root (fun o => ask frames <- array_of o (L "frames") core_frame; give (mk_core_thread frames)).
(* lib/core_stacktrace.c:192-216 the loop of sr_core_stacktrace_from_json *)
Fixpoint core_threads (l : list json) (i : nat) (crash : option nat) : told (list Types.core_thread * option nat) :=
  match l with
  | [] => give ([], crash)
  | j :: l =>
    ask t <- core_thread j;
    ask crash <- match j with
                 | JObj o => when o (L "crash_thread") crash (fun c =>
                     ask _ <- json_check_type c KBool (L "crash_thread");
                     match c with JBool true => give (Some i) | JBool false => give crash | _ => Breaks end)
                 | _ => give crash
                 end;
    ask (ts, crash) <- core_threads l (S i) crash;
    give (t :: ts, crash)
  end.
(* lib/core_stacktrace.c:164-224 sr_core_stacktrace_from_json *)
Definition core_stacktrace (root : json) : told Types.core_stacktrace :=
  members (L "stacktrace") root (fun o =>
    ask signal <- read_uint16 o (L "signal") 0;
    ask executable <- read_string o (L "executable") None;
    ask only <- read_bool o (L "only_crash_thread") false;
    ask (threads, crash) <- when o (L "stacktrace") ([], None) (fun j => elements (L "stacktrace") j (fun l => core_threads l 0 None));
    give (mk_core_stacktrace signal executable crash threads only)).

(* lib/python_frame.c:405-478 sr_python_frame_from_json *)
Definition python_frame (root : json) : told Types.python_frame :=
  members (L "frame") root (fun o =>
    ask (file_name, special_file) <- special o (L "file_name") (L "special_file");
    ask (function_name, special_function) <- special o (L "function_name") (L "special_function");
    ask line_contents <- read_string o (L "line_contents") None;
    ask file_line <- read_uint32 o (L "file_line") 0;
    give (mk_python_frame special_file file_name file_line special_function function_name line_contents)).
(* lib/python_stacktrace.c:280-323 sr_python_stacktrace_from_json *)
Definition python_stacktrace (root : json) : told Types.python_stacktrace :=
  members (L "stacktrace") root (fun o =>
    ask exception_name <- read_string o (L "exception_name") None;
    ask frames <- array_of o (L "stacktrace") python_frame;
    give (mk_python_stacktrace exception_name frames)).

(* lib/ruby_frame.c:398-459 sr_ruby_frame_from_json *)
Definition ruby_frame (root : json) : told Types.ruby_frame :=
  members (L "frame") root (fun o =>
    ask file_name <- when o (L "file_name") None (fun j => ask s <- string_of (L "file_name") j; give (Some s));
    ask (function_name, special_function) <- special o (L "function_name") (L "special_function");
    ask file_line <- read_uint32 o (L "file_line") 0;
    ask block_level <- read_uint32 o (L "block_level") 0;
    ask rescue_level <- read_uint32 o (L "rescue_level") 0;
    give (mk_ruby_frame file_name file_line special_function function_name block_level rescue_level)).
(* lib/ruby_stacktrace.c:319-362 sr_ruby_stacktrace_from_json *)
Definition ruby_stacktrace (root : json) : told Types.ruby_stacktrace :=
  members (L "stacktrace") root (fun o =>
    ask exception_name <- read_string o (L "exception_name") None;
    ask frames <- array_of o (L "stacktrace") ruby_frame;
    give (mk_ruby_stacktrace exception_name frames)).

(* lib/js_platform.c:191-239 sr_js_platform_from_json; json-c finds no members in what is not an object *)
Definition js_platform (root : json) : told Z :=
  let o := match root with JObj o => o | _ => [] end in
  ask engine_str <- read_string o (L "engine") None;
  match engine_str with
  | None => Refuses [L "No 'engine' member"]
  | Some engine_str =>
    let engine := js_engine_from_string engine_str in
    if negb (str_eqb engine_str (L "<unknown>")) && (engine =? 0) then Refuses [L "Unknown JavaScript engine '" ++ engine_str ++ L "'"] else
    ask runtime_str <- read_string o (L "runtime") None;
    match runtime_str with
    | None => Refuses [L "No 'runtime' member"]
    | Some runtime_str =>
      let runtime := js_runtime_from_string runtime_str in
      if negb (str_eqb runtime_str (L "<unknown>")) && (runtime =? 0) then Refuses [L "Unknown JavaScript runtime '" ++ runtime_str ++ L "'"]
      else give (js_assemble engine runtime)
    end
  end.
(* lib/js_frame.c:373-420 sr_js_frame_from_json *)
Definition js_frame (root : json) : told Types.js_frame :=
  members (L "frame") root (fun o =>
    ask file_name <- when o (L "file_name") None (fun j => ask s <- string_of (L "file_name") j; give (Some s));
    ask function_name <- when o (L "function_name") None (fun j => ask s <- string_of (L "function_name") j; give (Some s));
    ask file_line <- read_uint32 o (L "file_line") 0;
    ask line_column <- read_uint32 o (L "line_column") 0;
    give (mk_js_frame file_name file_line line_column function_name)).
(* lib/js_stacktrace.c:297-350 sr_js_stacktrace_from_json *)
Definition js_stacktrace (root : json) : told Types.js_stacktrace :=
  members (L "stacktrace") root (fun o =>
    ask exception_name <- read_string o (L "exception_name") None;
    ask frames <- array_of o (L "stacktrace") js_frame;
    ask platform <- when o (L "platform") 0 js_platform;
    give (mk_js_stacktrace exception_name frames platform)).

(* lib/java_frame.c:622-646 sr_java_frame_from_json *)
Definition java_frame (root : json) : told Types.java_frame :=
  members (L "frame") root (fun o =>
    ask name <- read_string o (L "name") None;
    ask file_name <- read_string o (L "file_name") None;
    ask file_line <- read_uint32 o (L "file_line") 0;
    ask class_path <- read_string o (L "class_path") None;
    ask is_native <- read_bool o (L "is_native") false;
    ask is_exception <- read_bool o (L "is_exception") false;
    ask message <- read_string o (L "message") None;
    give (mk_java_frame name file_name file_line class_path is_native is_exception message)).
(* lib/java_thread.c:410-452 sr_java_thread_from_json *)
Definition java_thread (root : json) : told Types.java_thread :=
  members (L "thread") root (fun o =>
    ask name <- read_string o (L "name") None;
    ask frames <- array_of o (L "frames") java_frame;
    give (mk_java_thread name frames)).
(* lib/java_stacktrace.c:195-233 sr_java_stacktrace_from_json *)
Definition java_stacktrace (root : json) : told Types.java_stacktrace :=
  members (L "stacktrace") root (fun o => ask threads <- array_of o (L "threads") java_thread; give (mk_java_stacktrace threads)).

(* lib/koops_frame.c:671-700 sr_koops_frame_from_json *)
Definition koops_frame (root : json) : told Types.koops_frame :=
  members (L "frame") root (fun o =>
    ask address <- read_uint64 o (L "address") 0;
    ask reliable <- read_bool o (L "reliable") false;
    ask function_name <- read_string o (L "function_name") None;
    ask function_offset <- read_uint64 o (L "function_offset") 0;
    ask function_length <- read_uint64 o (L "function_length") 0;
    ask module_name <- read_string o (L "module_name") None;
    ask from_address <- read_uint64 o (L "from_address") 0;
    ask from_function_name <- read_string o (L "from_function_name") None;
    ask from_function_offset <- read_uint64 o (L "from_function_offset") 0;
    ask from_function_length <- read_uint64 o (L "from_function_length") 0;
    ask from_module_name <- read_string o (L "from_module_name") None;
    ask special_stack <- read_string o (L "special_stack") None;
    give (mk_koops_frame address reliable function_name function_offset function_length module_name
            from_address from_function_name from_function_offset from_function_length from_module_name special_stack)).
(* lib/koops_stacktrace.c:660-682 *)
Fixpoint koops_taint (l : list json) (vals : list bool) : told (list bool) :=
  match l with
  | [] => give vals
  | j :: l => ask flag <- string_of (L "taint flag") j; koops_taint l (set_flag taint_flags vals flag)
  end.
(* lib/koops_stacktrace.c:700-718; an element that is not a string leaves by the path that frees the array, which has no
   terminator yet; element 127 is written past the end *)
Fixpoint koops_modules (l : list json) (i : nat) : told (list str) :=
  match l with
  | [] => give []
  | j :: l =>
    match string_of (L "module") j with
    | Gives m _ => if (127 <=? i)%nat then Breaks else ask ms <- koops_modules l (S i); give (m :: ms)
    | _ => Breaks
    end
  end.
(* lib/koops_stacktrace.c:632-755 sr_koops_stacktrace_from_json *)
Definition koops_stacktrace (root : json) : told Types.koops_stacktrace :=
  members (L "stacktrace") root (fun o =>
    ask version <- read_string o (L "version") None;
    ask raw_oops <- read_string o (L "raw_oops") None;
    ask taint <- when o (L "taint_flags") no_taint (fun j => elements (L "taint_flags") j (fun l => koops_taint l no_taint));
    ask modules <- when o (L "modules") None (fun j => elements (L "modules") j (fun l => ask ms <- koops_modules l 0; give (Some ms)));
    ask frames <- array_of o (L "frames") koops_frame;
    give (mk_koops_stacktrace version taint modules raw_oops frames None)).
(* lib/generic_stacktrace.c:102-106 sr_stacktrace_from_json; gdb has no such function *)
Definition stacktrace_of (type : nat) (root : json) : told stacktrace :=
  let as_ {A} (f : A -> stacktrace) (x : told A) := ask a <- x; give (f a) in
  if Nat.eqb type REPORT_CORE then as_ SCore (core_stacktrace root)
  else if Nat.eqb type REPORT_PYTHON then as_ SPython (python_stacktrace root)
  else if Nat.eqb type REPORT_KERNELOOPS then as_ SKoops (koops_stacktrace root)
  else if Nat.eqb type REPORT_JAVA then as_ SJava (java_stacktrace root)
  else if Nat.eqb type REPORT_RUBY then as_ SRuby (ruby_stacktrace root)
  else if Nat.eqb type REPORT_JAVASCRIPT then as_ SJs (js_stacktrace root)
  else Breaks.

(** ** Reports *)
(** The result is not looked at; the message stays. *)
Definition aside {A} (x : told A) : told (option A) :=
  match x with Gives a ms => Gives (Some a) ms | Refuses ms => Gives None ms | Breaks => Breaks end.
(* lib/operating_system.c:128-154 sr_operating_system_from_json *)
Definition operating_system_of (root : json) : told operating_system :=
  members (L "operating system") root (fun o =>
    ask success <- aside (
      ask name <- read_string o (L "name") None;
      ask version <- read_string o (L "version") None;
      ask architecture <- read_string o (L "architecture") None;
      ask uptime <- read_uint64 o (L "uptime") 0;
      give (name, version, architecture, uptime));
    ask desktop <- aside (read_string o (L "desktop") None);
    ask variant <- aside (read_string o (L "variant") None);
    let left_ (x : option (option str)) := match x with Some x => x | None => None end in
    match success with
    | None => Refuses []
    | Some (name, version, architecture, uptime) => give (mk_os name version architecture None uptime (left_ desktop) (left_ variant))
    end).
(* lib/rpm.c:573-619 single_rpm_package_from_json *)
Definition package_of (root : json) : told rpm_package :=
  members (L "package") root (fun o =>
    ask name <- read_string o (L "name") None;
    ask version <- read_string o (L "version") None;
    ask release <- read_string o (L "release") None;
    ask architecture <- read_string o (L "architecture") None;
    ask epoch <- read_uint32 o (L "epoch") 0;
    ask install_time <- read_uint64 o (L "install_time") 0;
    ask role <- when o (L "package_role") ROLE_UNKNOWN (fun j =>
      ask role <- string_of (L "package_role") j;
      if str_eqb role (L "affected") then give ROLE_AFFECTED else Refuses [L "Invalid package role " ++ role]);
    give (mk_rpm_package name epoch version release architecture install_time role [])).
(* lib/rpm.c:621-660 sr_rpm_package_from_json, recursive *)
Definition packages_of (root : json) : told (list rpm_package) := elements (L "package list") root (each package_of).
(* lib/report.c:424-440 *)
Fixpoint auth_of (entries : list (str * json)) (l : list (str * str)) : told (list (str * str)) :=
  match entries with
  | [] => give l
  | (name, value) :: entries => ask s <- aside (string_of name value); auth_of entries (match s with Some s => (name, s) :: l | None => l end)
  end.
(* lib/report.c:314-448 sr_report_from_json *)
Definition report_of (package_name package_version : str) (root : json) : told report :=
  members (L "root value") root (fun o =>
    ask version <- read_uint32 o (L "ureport_version") 2;
    ask (name, reporter_version) <- when o (L "reporter") (Some package_name, Some package_version) (fun j =>
      members (L "reporter") j (fun ro =>
        ask name <- read_string ro (L "name") (Some package_name);
        ask version <- read_string ro (L "version") (Some package_version);
        give (name, version)));
    ask os <- when o (L "os") None (fun j => ask os <- operating_system_of j; give (Some os));
    ask packages <- when o (L "packages") [] packages_of;
    ask (type, component, user, serial, stacktrace) <- when o (L "problem") (REPORT_INVALID, None, (false, true), 0, None) (fun j =>
      members (L "problem") j (fun po =>
        ask type <- read_string po (L "type") None;
        ask component <- read_string po (L "component") None;
        let type := sr_report_type_from_string type in
        ask user <- when o (L "user") (false, true) (fun j =>
          members (L "user") j (fun uo =>
            ask root <- read_bool uo (L "root") false;
            ask local <- read_bool uo (L "local") true;
            give (root, local)));
        ask serial <- read_uint32 po (L "serial") 0;
        ask stacktrace <- (if existsb (Nat.eqb type) [REPORT_CORE; REPORT_PYTHON; REPORT_KERNELOOPS; REPORT_JAVA; REPORT_RUBY]
                           then aside (stacktrace_of type (JObj po)) else give None);
        give (type, component, user, serial, stacktrace)));
    ask auth <- when o (L "auth") [] (fun j => members (L "auth") j (fun ao => auth_of (rev (object_entries ao)) []));
    give (mk_report version type name reporter_version (fst user) (snd user) os component packages stacktrace auth serial)).

(** ** Texts *)
Section Texts.
Variable tokener : str -> option json.     (* json_tokener_parse_verbose *)
Variable description : str -> str.         (* json_tokener_error_desc of its error *)
(* lib/report.c:450-472, lib/generic_stacktrace.c:108-133, lib/core_stacktrace.c:226-251 *)
Definition of_text {A} (f : json -> told A) (text : str) : told A :=
  match tokener text with None => Refuses [description text] | Some root => f root end.
(** What the caller has: the result, and *error_message. *)
Definition result {A} (x : told A) : res (option A * option str) :=
  match x with Gives a ms => Ok (Some a, last_of ms) | Refuses ms => Ok (None, last_of ms) | Breaks => UB end.
End Texts.
