(** * The attributes of the Python objects: python/py_common.c and the tables that name them. *)
From Verif Require Import Base HeapModel UtilsModel SystemModel.
Open Scope Z_scope.

(** ** Python values and text *)
(* A Python value as far as the getters and setters look at it.  A string is its code points.  [VOther t]: anything
   else; [t] is what its truth is, None if asking raises an exception. *)
Inductive pyval :=
| VNone
| VBool (b : bool)
| VInt (z : Z)
| VStr (text : list Z)
| VOther (truth : option bool).
Definition chr (z : Z) : ascii := ascii_of_N (Z.to_N z).
Definition ord (a : ascii) : Z := Z.of_N (N_of_ascii a).
(* PyUnicode_AsUTF8 (CPython): the UTF-8 encoding; surrogates have none *)
Definition utf8_char (c : Z) : option str :=
  if c <? 128 then Some [chr c]
  else if c <? 2048 then Some [chr (192 + c / 64); chr (128 + c mod 64)]
  else if c <? 65536 then
    if (55296 <=? c) && (c <? 57344) then None
    else Some [chr (224 + c / 4096); chr (128 + (c / 64) mod 64); chr (128 + c mod 64)]
  else Some [chr (240 + c / 262144); chr (128 + (c / 4096) mod 64); chr (128 + (c / 64) mod 64); chr (128 + c mod 64)].
Fixpoint as_utf8 (t : list Z) : option str :=
  match t with
  | [] => Some []
  | c :: t =>
    match utf8_char c, as_utf8 t with
    | Some b, Some r => Some (b ++ r)
    | _, _ => None
    end
  end.
(* PyUnicode_FromString (CPython): strict UTF-8; None: UnicodeDecodeError *)
Definition cont (a : ascii) : option Z := if (128 <=? ord a) && (ord a <? 192) then Some (ord a - 128) else None.
Fixpoint from_utf8 (s : str) : option (list Z) :=
  match s with
  | [] => Some []
  | a :: s =>
    if ord a <? 128 then option_map (cons (ord a)) (from_utf8 s)
    else if (194 <=? ord a) && (ord a <? 224) then
      match s with
      | b :: s =>
        match cont b with
        | Some x => option_map (cons ((ord a - 192) * 64 + x)) (from_utf8 s)
        | None => None
        end
      | _ => None
      end
    else if (224 <=? ord a) && (ord a <? 240) then
      match s with
      | b :: c :: s =>
        match cont b, cont c with
        | Some x, Some y =>
          let v := (ord a - 224) * 4096 + x * 64 + y in
          if (v <? 2048) || ((55296 <=? v) && (v <? 57344)) then None else option_map (cons v) (from_utf8 s)
        | _, _ => None
        end
      | _ => None
      end
    else if (240 <=? ord a) && (ord a <? 245) then
      match s with
      | b :: c :: d :: s =>
        match cont b, cont c, cont d with
        | Some x, Some y, Some z =>
          let v := (ord a - 240) * 262144 + x * 4096 + y * 64 + z in
          if (v <? 65536) || (1114112 <=? v) then None else option_map (cons v) (from_utf8 s)
        | _, _, _ => None
        end
      | _ => None
      end
    else None
  end.
(* what strlen and g_strdup see of a buffer: up to the first NUL *)
Fixpoint c_string (s : str) : str :=
  match s with
  | [] => []
  | a :: s => if ord a =? 0 then [] else a :: c_string s
  end.
(* PyLong_AsLong; None: an exception (bool is a subtype of int) *)
Definition as_int (v : pyval) : option Z :=
  match v with
  | VInt z => Some z
  | VBool b => Some (if b then 1 else 0)
  | _ => None
  end.
Definition as_long (v : pyval) : option Z :=
  match as_int v with
  | Some z => if (- 2 ^ 63 <=? z) && (z <? 2 ^ 63) then Some z else None
  | None => None
  end.
(* PyObject_IsTrue; None: an exception *)
Definition truth (v : pyval) : option bool :=
  match v with
  | VNone => Some false
  | VBool b => Some b
  | VInt z => Some (negb (z =? 0))
  | VStr t => Some (match t with [] => false | _ => true end)
  | VOther t => t
  end.

(** ** The members of the C structures *)
(* The strings, in the order of HeapModel.v's [str_ops], from the headers: include/core/frame.h:43-82,
   include/python/frame.h:41-58, include/koops/frame.h:43-105, include/java/frame.h:41-92, include/gdb/frame.h:47-104,
   include/ruby/frame.h:41-58, include/js/frame.h:41-54, include/java/thread.h:47-66, include/gdb/sharedlib.h:45-52,
   include/core/stacktrace.h:43-63, include/python/stacktrace.h:40-48, include/koops/stacktrace.h:41-95,
   include/ruby/stacktrace.h:40-47, include/js/stacktrace.h:41-50, include/rpm.h:51-77,
   include/operating_system.h:36-46, include/report.h:39-68 *)
Definition strings (k : kind) : list str :=
  match k with
  | KCoreFrame => [L "build_id"; L "function_name"; L "file_name"; L "fingerprint"]
  | KPythonFrame => [L "file_name"; L "function_name"; L "line_contents"]
  | KKoopsFrame => [L "function_name"; L "module_name"; L "from_function_name"; L "from_module_name"; L "special_stack"]
  | KJavaFrame => [L "name"; L "file_name"; L "class_path"; L "message"]
  | KGdbFrame => [L "function_name"; L "function_type"; L "source_file"; L "library_name"]
  | KRubyFrame | KJsFrame => [L "file_name"; L "function_name"]
  | KJavaThread => [L "name"]
  | KGdbLib => [L "soname"]
  | KCoreStack => [L "executable"]
  | KPythonStack | KRubyStack | KJsStack => [L "exception_name"]
  | KKoopsStack => [L "version"; L "raw_oops"; L "reason"]
  | KRpm => [L "name"; L "version"; L "release"; L "architecture"]
  | KConsistency => [L "path"]
  | KOs => [L "name"; L "version"; L "architecture"; L "cpe"; L "desktop"; L "variant"]
  | KAuth => [L "value"; L "key"]
  | KReport => [L "component_name"]
  | _ => []
  end.
(* The reporter's name and version point to constants when a report is new (lib/report.c:62-63): a borrowed pointer
   that is None is such a constant. *)
Definition constants (k : kind) : list str :=
  match k with KReport => [L "reporter_name"; L "reporter_version"] | _ => [] end.
(* The numbers and flags, same headers; members the bindings do not use are left out *)
Inductive ctype := TU16 | TU32 | TU64 | TBool | TEnum.
Scheme Equality for ctype.
Definition scalars (k : kind) : list (str * ctype) :=
  match k with
  | KCoreFrame => [(L "address", TU64); (L "build_id_offset", TU64); (L "fingerprint_hashed", TBool)]
  | KPythonFrame => [(L "special_file", TBool); (L "file_line", TU32); (L "special_function", TBool)]
  | KKoopsFrame =>
    [(L "address", TU64); (L "reliable", TBool); (L "function_offset", TU64); (L "function_length", TU64);
     (L "from_address", TU64); (L "from_function_offset", TU64); (L "from_function_length", TU64)]
  | KJavaFrame => [(L "file_line", TU32); (L "is_native", TBool); (L "is_exception", TBool)]
  | KGdbFrame => [(L "number", TU32); (L "source_line", TU32); (L "signal_handler_called", TBool); (L "address", TU64)]
  | KRubyFrame => [(L "file_line", TU32); (L "special_function", TBool); (L "block_level", TU32); (L "rescue_level", TU32)]
  | KJsFrame => [(L "file_line", TU32); (L "line_column", TU32)]
  | KGdbThread => [(L "number", TU32); (L "tid", TU32)]
  | KGdbLib => [(L "from", TU64); (L "to", TU64); (L "symbols", TEnum)]
  | KCoreStack => [(L "signal", TU16); (L "only_crash_thread", TBool)]
  | KRpm => [(L "epoch", TU32); (L "install_time", TU64); (L "role", TEnum)]
  | KOs => [(L "uptime", TU64)]
  | KReport => [(L "report_version", TU32); (L "report_type", TEnum); (L "user_root", TBool); (L "user_local", TBool); (L "serial", TU32)]
  | _ => []
  end.

(** ** The tables of attributes *)
(* Which getter and setter an attribute has: SR_ATTRIBUTE_STRING and so on (python/py_common.h:93-115), or functions
   of its own. *)
Inductive access := AString | AUint16 | AUint32 | AUint64 | ABool | ASymbols | ARole | AVersion | AType.
(* (name in Python, access, member): python/py_core_frame.c:59-70, python/py_python_frame.c:60-69,
   python/py_koops_frame.c:69-84, python/py_java_frame.c:61-72, python/py_gdb_frame.c:112-123,
   python/py_ruby_frame.c:60-69, python/py_js_frame.c:58-65, python/py_java_thread.c:53-57,
   python/py_gdb_thread.c:53-57, python/py_gdb_sharedlib.c:24-31, python/py_core_stacktrace.c:59-65,
   python/py_python_stacktrace.c:44-48, python/py_koops_stacktrace.c:49-56 (modules and taint_flags are left out),
   python/py_ruby_stacktrace.c:39-43, python/py_js_stacktrace.c:59-63, python/py_rpm_package.c:51-61,
   python/py_operating_system.c:40-48, python/py_report.c:62-74 (auth is left out) *)
Definition attributes (k : kind) : list (str * access * str) :=
  match k with
  | KCoreFrame =>
    [(L "address", AUint64, L "address"); (L "build_id", AString, L "build_id"); (L "build_id_offset", AUint64, L "build_id_offset");
     (L "function_name", AString, L "function_name"); (L "file_name", AString, L "file_name");
     (L "fingerprint", AString, L "fingerprint"); (L "fingerprint_hashed", ABool, L "fingerprint_hashed")]
  | KPythonFrame =>
    [(L "file_name", AString, L "file_name"); (L "special_file", ABool, L "special_file"); (L "file_line", AUint32, L "file_line");
     (L "function_name", AString, L "function_name"); (L "special_function", ABool, L "special_function");
     (L "line_contents", AString, L "line_contents")]
  | KKoopsFrame =>
    [(L "reliable", ABool, L "reliable"); (L "address", AUint64, L "address"); (L "function_name", AString, L "function_name");
     (L "function_offset", AUint64, L "function_offset"); (L "function_length", AUint64, L "function_length");
     (L "module_name", AString, L "module_name"); (L "from_address", AUint64, L "from_address");
     (L "from_function_name", AString, L "from_function_name"); (L "from_function_offset", AUint64, L "from_function_offset");
     (L "from_function_length", AUint64, L "from_function_length"); (L "from_module_name", AString, L "from_module_name");
     (L "special_stack", AString, L "special_stack")]
  | KJavaFrame =>
    [(L "function_name", AString, L "name"); (L "name", AString, L "name"); (L "file_name", AString, L "file_name");
     (L "file_line", AUint32, L "file_line"); (L "class_path", AString, L "class_path"); (L "is_native", ABool, L "is_native");
     (L "is_exception", ABool, L "is_exception"); (L "message", AString, L "message")]
  | KGdbFrame =>
    [(L "function_name", AString, L "function_name"); (L "function_type", AString, L "function_type"); (L "number", AUint32, L "number");
     (L "source_file", AString, L "source_file"); (L "source_line", AUint32, L "source_line");
     (L "signal_handler_called", ABool, L "signal_handler_called"); (L "address", AUint64, L "address");
     (L "library_name", AString, L "library_name")]
  | KRubyFrame =>
    [(L "file_name", AString, L "file_name"); (L "file_line", AUint32, L "file_line"); (L "special_function", ABool, L "special_function");
     (L "function_name", AString, L "function_name"); (L "block_level", AUint32, L "block_level"); (L "rescue_level", AUint32, L "rescue_level")]
  | KJsFrame =>
    [(L "file_name", AString, L "file_name"); (L "file_line", AUint32, L "file_line"); (L "line_column", AUint32, L "line_column");
     (L "function_name", AString, L "function_name")]
  | KJavaThread => [(L "name", AString, L "name")]
  | KGdbThread => [(L "number", AUint32, L "number")]
  | KGdbLib =>
    [(L "start_address", AUint64, L "from"); (L "end_address", AUint64, L "to"); (L "soname", AString, L "soname");
     (L "symbols", ASymbols, L "symbols")]
  | KCoreStack =>
    [(L "signal", AUint16, L "signal"); (L "executable", AString, L "executable"); (L "only_crash_thread", ABool, L "only_crash_thread")]
  | KPythonStack | KRubyStack | KJsStack => [(L "exception_name", AString, L "exception_name")]
  | KKoopsStack => [(L "version", AString, L "version"); (L "raw_oops", AString, L "raw_oops")]
  | KRpm =>
    [(L "name", AString, L "name"); (L "epoch", AUint32, L "epoch"); (L "version", AString, L "version"); (L "release", AString, L "release");
     (L "architecture", AString, L "architecture"); (L "install_time", AUint64, L "install_time"); (L "role", ARole, L "role")]
  | KOs =>
    [(L "name", AString, L "name"); (L "version", AString, L "version"); (L "architecture", AString, L "architecture");
     (L "cpe", AString, L "cpe"); (L "uptime", AUint64, L "uptime")]
  | KReport =>
    [(L "reporter_name", AString, L "reporter_name"); (L "reporter_version", AString, L "reporter_version");
     (L "user_root", ABool, L "user_root"); (L "user_local", ABool, L "user_local"); (L "component_name", AString, L "component_name");
     (L "serial", AUint32, L "serial"); (L "report_version", AVersion, L "report_version"); (L "report_type", AType, L "report_type")]
  | _ => []
  end.
Definition str_eqb (a b : str) : bool := if list_eq_dec ascii_dec a b then true else false.
Fixpoint find_attr (l : list (str * access * str)) (name : str) : option (access * str) :=
  match l with
  | [] => None
  | (n, a, m) :: l => if str_eqb n name then Some (a, m) else find_attr l name
  end.

(** ** Reading and writing members *)
(* offsetof: where a member is; a member accessed as another type than its own is [UB] *)
Fixpoint pos (l : list str) (m : str) : option nat :=
  match l with
  | [] => None
  | x :: l => if str_eqb x m then Some O else option_map S (pos l m)
  end.
Definition offset (k : kind) (m : str) (t : ctype) : res nat :=
  match pos (map fst (scalars k)) m with
  | Some i => match nth_error (scalars k) i with Some (_, t') => if ctype_beq t t' then Ok i else UB | None => UB end
  | None => UB
  end.
Fixpoint store {A} (l : list A) (i : nat) (x : A) : list A :=
  match l, i with
  | [], _ => []
  | _ :: l, O => x :: l
  | y :: l, S i => y :: store l i x
  end.
Definition load {A} (l : list A) (i : nat) : res A := match nth_error l i with Some x => Ok x | None => UB end.
Section Attributes.
Variable constant : str -> str. (* PACKAGE_NAME and PACKAGE_VERSION *)

(* None: NULL *)
Definition load_string (h : heap) (c : addr) (m : str) : res (option str) :=
  do x <- get h c;
  match x with
  | CObj k _ strs _ _ raw _ =>
    match pos (strings k) m, pos (constants k) m with
    | Some i, _ => do p <- load strs i; match p with None => Ok None | Some a => do s <- get_str h a; Ok (Some s) end
    | None, Some i => do p <- load raw i; match p with None => Ok (Some (constant m)) | Some a => do s <- get_str h a; Ok (Some s) end
    | None, None => UB
    end
  | _ => UB
  end.
Definition load_scalar (h : heap) (c : addr) (m : str) (t : ctype) : res Z :=
  do x <- get h c;
  match x with
  | CObj k scal _ _ _ _ _ => do i <- offset k m t; load scal i
  | _ => UB
  end.
Definition store_scalar (h : heap) (c : addr) (m : str) (t : ctype) (z : Z) : res heap :=
  do x <- get h c;
  match x with
  | CObj k scal strs kids arr raw next =>
    do i <- offset k m t;
    do _ <- load scal i;
    set_cell h c (CObj k (store scal i z) strs kids arr raw next)
  | _ => UB
  end.
(* g_free and g_strdup; freeing a constant is [UB] *)
Definition replace_string (h : heap) (c : addr) (m s : str) : res heap :=
  do x <- get h c;
  match x with
  | CObj k scal strs kids arr raw next =>
    match pos (strings k) m, pos (constants k) m with
    | Some i, _ =>
      do p <- load strs i;
      do h <- g_free_opt h p;
      let '(h, a) := alloc h (CStr s) in
      set_cell h c (CObj k scal (store strs i (Some a)) kids arr raw next)
    | None, Some i =>
      do p <- load raw i;
      match p with
      | None => UB
      | Some q =>
        do h <- g_free h q;
        let '(h, a) := alloc h (CStr s) in
        set_cell h c (CObj k scal strs kids arr (store raw i (Some a)) next)
      end
    | None, None => UB
    end
  | _ => UB
  end.

(** ** Getters and setters *)
(* python/py_common.c:29-40 sr_py_getter_string, 63-70 sr_py_getter_uint16, 97-104 sr_py_getter_uint32,
   131-139 sr_py_getter_bool, 157-171 sr_py_getter_uint64; symbols: python/py_gdb_sharedlib.c:117-121; role:
   python/py_rpm_package.c:198-202; report version and type: python/py_report.c:450-466.  None: an exception *)
Definition getter (h : heap) (c : addr) (a : access) (m : str) : res (option pyval) :=
  match a with
  | AString =>
    do s <- load_string h c m;
    match s with
    | None => Ok (Some VNone)
    | Some s => Ok (option_map VStr (from_utf8 s))
    end
  | AUint16 => do z <- load_scalar h c m TU16; Ok (Some (VInt z))
  | AUint32 | AVersion => do z <- load_scalar h c m TU32; Ok (Some (VInt z))
  | ABool => do z <- load_scalar h c m TBool; Ok (Some (VBool (negb (z =? 0))))
  | AUint64 => do z <- load_scalar h c m TU64; Ok (Some (if z =? 2 ^ 64 - 1 then VNone else VInt z))
  | ASymbols | ARole => do z <- load_scalar h c m TEnum; Ok (Some (VInt z))
  | AType => do z <- load_scalar h c m TEnum; Ok (option_map VStr (from_utf8 (sr_report_type_to_string (Z.to_nat z))))
  end.
(* python/py_common.c:42-62 sr_py_setter_string, 72-96 sr_py_setter_uint16, 106-130 sr_py_setter_uint32,
   141-156 sr_py_setter_bool, 173-199 sr_py_setter_uint64, 201-206 sr_py_setter_readonly; symbols:
   python/py_gdb_sharedlib.c:123-146; role: python/py_rpm_package.c:204-225; report type: python/py_report.c:468-491.
   [rhs] None: the attribute is deleted.  false: -1 with an exception *)
Definition setter (h : heap) (c : addr) (a : access) (m : str) (rhs : option pyval) : res (heap * bool) :=
  match rhs with
  | None => Ok (h, false)
  | Some v =>
    match a with
    | AString =>
      match v with
      | VStr t =>
        match as_utf8 t with
        | Some s => do h <- replace_string h c m (c_string s); Ok (h, true)
        | None => Ok (h, false)
        end
      | _ => Ok (h, false)
      end
    | AUint16 =>
      match as_long v with
      | None => Ok (h, false)
      | Some z => if (z <? 0) || (z >? 65535) then Ok (h, false) else do h <- store_scalar h c m TU16 z; Ok (h, true)
      end
    | AUint32 =>
      match as_long v with
      | None => Ok (h, false)
      | Some z => if z <? 0 then Ok (h, false) else do h <- store_scalar h c m TU32 (z mod 2 ^ 32); Ok (h, true)
      end
    | ABool =>
      let b := match truth v with Some b => b | None => true end in
      do h <- store_scalar h c m TBool (if b then 1 else 0); Ok (h, true)
    | AUint64 =>
      match v with
      | VNone => do h <- store_scalar h c m TU64 (2 ^ 64 - 1); Ok (h, true)
      | _ =>
        match as_int v with
        | None => Ok (h, false)
        | Some z => do h <- store_scalar h c m TU64 (z mod 2 ^ 64); Ok (h, true)
        end
      end
    | ASymbols =>
      match as_long v with
      | None => Ok (h, false)
      | Some z => if (z =? 0) || (z =? 1) || (z =? 2) then do h <- store_scalar h c m TEnum z; Ok (h, true) else Ok (h, false)
      end
    | ARole =>
      match as_long v with
      | None => Ok (h, false)
      | Some z => if (z =? 0) || (z =? 1) then do h <- store_scalar h c m TEnum z; Ok (h, true) else Ok (h, false)
      end
    | AVersion => Ok (h, false)
    | AType =>
      match v with
      | VStr t =>
        match as_utf8 t with
        | Some s =>
          match sr_report_type_from_string (Some (c_string s)) with
          | O => Ok (h, false)
          | ty => do h <- store_scalar h c m TEnum (Z.of_nat ty); Ok (h, true)
          end
        | None => Ok (h, false)
        end
      | _ => Ok (h, false)
      end
    end
  end.
(* The interpreter looks the attribute up by its name.  None: no such attribute *)
Definition getattr (h : heap) (k : kind) (c : addr) (name : str) : option (res (option pyval)) :=
  match find_attr (attributes k) name with
  | Some (a, m) => Some (getter h c a m)
  | None => None
  end.
Definition setattr (h : heap) (k : kind) (c : addr) (name : str) (rhs : option pyval) : option (res (heap * bool)) :=
  match find_attr (attributes k) name with
  | Some (a, m) => Some (setter h c a m rhs)
  | None => None
  end.
End Attributes.
