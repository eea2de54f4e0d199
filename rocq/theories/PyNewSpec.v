(** * What creating an object in Python means. *)
From Verif Require Import Base Types JsonSpec TextModel PyParseModel RubyParseModel JavaParseModel JsParseModel KoopsModel GdbParseModel GdbLibModel FunsModel
  JsonTypesModel JsonTypesSpec HeapModel HeapSpec PyModel PySpec PyAttrModel PyAttrSpec PyBaseModel PyBaseSpec.
Open Scope nat_scope.

(** Memory has grown, and the new cells are exactly the given ones. *)
Definition taken (h h' : heap) (cells : list addr) : Prop :=
  length h <= length h' /\ (forall x, x < length h -> nth_error h' x = nth_error h x) /\
  NoDup cells /\ (forall x, In x cells <-> length h <= x < length h').
(** The same, but some of the new cells have been freed again. *)
Definition taken_freed (h h' : heap) (cells : list addr) : Prop :=
  length h <= length h' /\ (forall x, x < length h -> nth_error h' x = nth_error h x) /\
  NoDup cells /\ (forall x, In x cells -> length h <= x < length h') /\ (forall x, length h <= x < length h' -> In x cells \/ freed h' x).

(** The text begins with a frame, which the parser of the type reads; it does not, and the parser says so. *)
Definition reads_frame (k : kind) (s : str) (f : frame) : Prop :=
  match f with
  | FGdb f => k = KGdbFrame /\ exists rest, sr_gdb_frame_parse s = Ok (f, rest)
  | FJava f => k = KJavaFrame /\ exists rest, sr_java_frame_parse s = Ok (f, rest)
  | FPython f => k = KPythonFrame /\ exists rest, sr_python_frame_parse s = Ok (Some f, rest)
  | FRuby f => k = KRubyFrame /\ exists rest, sr_ruby_frame_parse s = Ok (f, rest)
  | FJs f => k = KJsFrame /\ exists rest, sr_js_frame_parse s = Ok (f, rest)
  | FKoops f => k = KKoopsFrame /\ exists rest, sr_koops_frame_parse s = Some (f, rest)
  | FCore f => False
  end.
Definition no_frame (k : kind) (s : str) : Prop :=
  k = KGdbFrame /\ sr_gdb_frame_parse s = Fail \/ k = KJavaFrame /\ sr_java_frame_parse s = Fail \/
  k = KPythonFrame /\ (exists rest, sr_python_frame_parse s = Ok (None, rest)) \/
  k = KRubyFrame /\ sr_ruby_frame_parse s = Fail \/ k = KJsFrame /\ sr_js_frame_parse s = Fail.
(** A frame of which nothing is known. *)
Definition blank_frame (k : kind) (f : frame) : Prop :=
  match f with
  | FCore f => k = KCoreFrame /\ f = mk_core_frame ulong_max None ulong_max None None None true
  | FPython f => k = KPythonFrame /\ f = mk_python_frame false None 0 false None None
  | FKoops f => k = KKoopsFrame /\ f = mk_koops_frame 0 false None 0 0 None 0 None 0 0 None None
  | FJava f => k = KJavaFrame /\ f = mk_java_frame None None 0 None false false None
  | FGdb f => k = KGdbFrame /\ f = mk_gdb_frame None None 0 None 4294967295 false ulong_max None
  | FRuby f => k = KRubyFrame /\ f = mk_ruby_frame None 0 false None 0 0
  | FJs f => k = KJsFrame /\ f = mk_js_frame None 0 0 None
  end.
(** Threads. *)
Definition reads_thread (k : kind) (s : str) (only_funs : Z) (t : thread) : Prop :=
  match t with
  | TGdb t => k = KGdbThread /\ ((only_funs = 0%Z /\ exists rest, sr_gdb_thread_parse s = Ok (t, rest)) \/ (only_funs <> 0%Z /\ sr_gdb_thread_parse_funs (Some s) = Ok t))
  | TJava t => k = KJavaThread /\ exists rest, sr_java_thread_parse s = Ok (t, rest)
  | _ => False
  end.
Definition no_thread (k : kind) (s : str) (only_funs : Z) : Prop :=
  k = KGdbThread /\ only_funs = 0%Z /\ sr_gdb_thread_parse s = Fail \/ k = KJavaThread /\ sr_java_thread_parse s = Fail.
Definition blank_thread (k : kind) (t : thread) : Prop :=
  match t with
  | TCore t => k = KCoreThread /\ ct_frames t = []
  | TGdb t => k = KGdbThread /\ gt_number t = 4294967295%Z /\ gt_tid t = 4294967295%Z /\ gt_frames t = []
  | TJava t => k = KJavaThread /\ vt_name t = None /\ vt_frames t = []
  | _ => False
  end.
(** Stack traces: core stack traces are read from JSON texts; [tokener] is the JSON library. *)
Section Tokener.
Variable tokener : str -> option json.
Definition reads_stack (k : kind) (s : str) (x : stacktrace) : Prop :=
  match x with
  | SCore x => k = KCoreStack /\ exists root, tokener s = Some root /\ reads_core root x
  | SJava x => k = KJavaStack /\ exists rest, sr_java_stacktrace_parse s = Ok (x, rest)
  | SPython x => k = KPythonStack /\ exists rest, sr_python_stacktrace_parse s = Ok (x, rest)
  | SRuby x => k = KRubyStack /\ exists rest, sr_ruby_stacktrace_parse s = Ok (x, rest)
  | SJs x => k = KJsStack /\ exists rest, sr_js_stacktrace_parse s = Ok (x, rest)
  | SKoops x => k = KKoopsStack /\ exists rest, sr_koops_stacktrace_parse s = Ok (x, rest)
  | SGdb x => k = KGdbStack /\ exists rest, sr_gdb_stacktrace_parse s = Ok (x, rest)
  end.
Definition no_stack (k : kind) (s : str) : Prop :=
  k = KCoreStack /\ (tokener s = None \/ exists root, tokener s = Some root /\ forall x, ~ reads_core root x) \/
  k = KJavaStack /\ sr_java_stacktrace_parse s = Fail \/ k = KPythonStack /\ sr_python_stacktrace_parse s = Fail \/
  k = KRubyStack /\ sr_ruby_stacktrace_parse s = Fail \/ k = KJsStack /\ sr_js_stacktrace_parse s = Fail \/
  k = KKoopsStack /\ sr_koops_stacktrace_parse s = Fail.
(** JSON texts of stack traces (C33 to C36 say what the readers accept). *)
Definition reads_json (k : kind) (s : str) (x : stacktrace) : Prop :=
  exists root, tokener s = Some root /\
  match x with
  | SCore x => k = KCoreStack /\ core_stacktrace_from_json root = Ok x
  | SJava x => k = KJavaStack /\ java_stacktrace_from_json root = Ok x
  | SPython x => k = KPythonStack /\ python_stacktrace_from_json root = Ok x
  | SRuby x => k = KRubyStack /\ ruby_stacktrace_from_json root = Ok x
  | SJs x => k = KJsStack /\ js_stacktrace_from_json root = Ok x
  | SKoops x => k = KKoopsStack /\ koops_stacktrace_from_json root = Ok x
  | SGdb x => False
  end.
Definition no_json (k : kind) (s : str) : Prop :=
  k = KGdbStack \/ In k [KCoreStack; KJavaStack; KPythonStack; KRubyStack; KJsStack; KKoopsStack] /\
  (tokener s = None \/ exists root, tokener s = Some root /\
    (k = KCoreStack /\ core_stacktrace_from_json root = Fail \/ k = KJavaStack /\ java_stacktrace_from_json root = Fail \/
     k = KPythonStack /\ python_stacktrace_from_json root = Fail \/ k = KRubyStack /\ ruby_stacktrace_from_json root = Fail \/
     k = KJsStack /\ js_stacktrace_from_json root = Fail \/ k = KKoopsStack /\ koops_stacktrace_from_json root = Fail)).
End Tokener.
Definition blank_stack (k : kind) (x : stacktrace) : Prop :=
  match x with
  | SCore x => k = KCoreStack /\ x = mk_core_stacktrace 0 None None [] false
  | SJava x => k = KJavaStack /\ x = mk_java_stacktrace []
  | SPython x => k = KPythonStack /\ x = mk_python_stacktrace None []
  | SRuby x => k = KRubyStack /\ x = mk_ruby_stacktrace None []
  | SJs x => k = KJsStack /\ x = mk_js_stacktrace None [] 0
  | SKoops x => k = KKoopsStack /\ x = mk_koops_stacktrace None (repeat false 16) None None [] None
  | SGdb x => k = KGdbStack /\ x = mk_gdb_stacktrace [] None [] 4294967295
  end.
(** What [is_thread] leaves open: the taint flags of a kernel oops (1 or 0 each) and the platform of a JavaScript stack trace. *)
Definition rest_of_stack (v : value) (x : stacktrace) : Prop :=
  match x with
  | SKoops x => numbers v = map (fun b : bool => if b then 1%Z else 0%Z) (ks_taint x)
  | SJs x => numbers v = [js_platform x]
  | _ => True
  end.

(** New objects: of a frame; of a thread or single-threaded stack trace, with a new list of new frame objects; of a core or
    java stack trace, with a new list of new thread objects; of a gdb stack trace, with two lists.  [m] objects existed before. *)
Definition frame_object (m : nat) (os : objects) (h : heap) (r : ref) (k : kind) (e : entry) (f : frame) : Prop :=
  m <= r /\ object os r 1 (PyStruct k (e_addr e) []) /\ own h k None e /\ is_frame k (e_val e) f.
Definition thread_object (m : nat) (os : objects) (h : heap) (r : ref) (k : kind) (e : entry) (t : thread) : Prop :=
  exists fk l items es, m <= r /\ frame_kind k = Some fk /\ object os r 1 (PyStruct k (e_addr e) [Some l]) /\ new_list m os l fk items es /\
    own h k None e /\ unlinked_thread h k fk None e es /\ is_thread k (e_val e) t.
Definition multi_object (m : nat) (os : objects) (h : heap) (r : ref) (k : kind) (e : entry) (x : stacktrace) : Prop :=
  exists tk fk l ts, m <= r /\ thread_type k = Some tk /\ frame_kind tk = Some fk /\ object os r 1 (PyStruct k (e_addr e) [Some l]) /\
    new_threads m os l tk fk ts /\ own h k None e /\ unlinked_stack h k None e ts /\ is_stack k (e_val e) x /\ crash_pointer h e ts x.
Definition gdb_object (m : nat) (os : objects) (h : heap) (none r : ref) (e : entry) (x : gdb_stacktrace) : Prop :=
  exists lt ll ts items libs, m <= r /\ object os r 1 (PyStruct KGdbStack (e_addr e) [Some lt; Some ll; Some none]) /\
    new_threads m os lt KGdbThread KGdbFrame ts /\ new_list m os ll KGdbLib items libs /\ own h KGdbStack None e /\
    unlinked_gdb h None e ts libs /\ is_stack KGdbStack (e_val e) (SGdb x).
Definition stack_is_new (m : nat) (os : objects) (h : heap) (none r : ref) (k : kind) (e : entry) (x : stacktrace) : Prop :=
  rest_of_stack (e_val e) x /\
  match x with
  | SCore _ | SJava _ => multi_object m os h r k e x
  | SGdb x => k = KGdbStack /\ gdb_object m os h none r e x
  | SPython x => thread_object m os h r k e (TPython x)
  | SRuby x => thread_object m os h r k e (TRuby x)
  | SJs x => thread_object m os h r k e (TJs x)
  | SKoops x => thread_object m os h r k e (TKoops x)
  end.
