(** * What the attributes of the Python objects are. *)
From Verif Require Import Base HeapModel HeapSpec PyAttrModel.
Open Scope Z_scope.

(** UTF-8 (RFC 3629): the bytes of one code point, and of a text. *)
Inductive utf8_one : Z -> str -> Prop :=
| utf8_1 x : 0 <= x < 128 -> utf8_one x [chr x]
| utf8_2 x y : 2 <= x < 32 -> 0 <= y < 64 -> utf8_one (x * 64 + y) [chr (192 + x); chr (128 + y)]
| utf8_3 x y z : 0 <= x < 16 -> 0 <= y < 64 -> 0 <= z < 64 -> 2048 <= x * 4096 + y * 64 + z ->
    (x * 4096 + y * 64 + z < 55296 \/ 57344 <= x * 4096 + y * 64 + z) ->
    utf8_one (x * 4096 + y * 64 + z) [chr (224 + x); chr (128 + y); chr (128 + z)]
| utf8_4 w x y z : 0 <= w < 5 -> 0 <= x < 64 -> 0 <= y < 64 -> 0 <= z < 64 ->
    65536 <= w * 262144 + x * 4096 + y * 64 + z < 1114112 ->
    utf8_one (w * 262144 + x * 4096 + y * 64 + z) [chr (240 + w); chr (128 + x); chr (128 + y); chr (128 + z)].
Inductive utf8 : list Z -> str -> Prop :=
| utf8_nil : utf8 [] []
| utf8_cons c b t s : utf8_one c b -> utf8 t s -> utf8 (c :: t) (b ++ s).
(** A Python string: any code points; one that can be stored: no NUL and no surrogates. *)
Definition py_text (t : list Z) : Prop := Forall (fun c => 0 <= c < 1114112) t.
Definition surrogate (c : Z) : Prop := 55296 <= c < 57344.
Definition storable (t : list Z) : Prop := py_text t /\ Forall (fun c => c <> 0 /\ ~ surrogate c) t.

(** What an attribute is documented to be. *)
Inductive doc :=
| Text (member : str)                (* a string or None *)
| Number (member : str) (max : Z)    (* a number up to [max] *)
| Long (member : str)                (* an address or time; None if there is none *)
| Flag (member : str).
Definition member (d : doc) : str := match d with Text m | Number m _ | Long m | Flag m => m end.
Definition u32 := 4294967295.
Definition u64 := 18446744073709551615.
(** The numbers a structure holds, in its own order. *)
Definition number_members (k : kind) : list str :=
  match k with
  | KCoreFrame => [L "address"; L "build_id_offset"; L "fingerprint_hashed"]
  | KPythonFrame => [L "special_file"; L "file_line"; L "special_function"]
  | KKoopsFrame => [L "address"; L "reliable"; L "function_offset"; L "function_length"; L "from_address"; L "from_function_offset"; L "from_function_length"]
  | KJavaFrame => [L "file_line"; L "is_native"; L "is_exception"]
  | KGdbFrame => [L "number"; L "source_line"; L "signal_handler_called"; L "address"]
  | KRubyFrame => [L "file_line"; L "special_function"; L "block_level"; L "rescue_level"]
  | KJsFrame => [L "file_line"; L "line_column"]
  | KGdbThread => [L "number"; L "tid"]
  | KGdbLib => [L "from"; L "to"; L "symbols"]
  | KCoreStack => [L "signal"; L "only_crash_thread"]
  | KRpm => [L "epoch"; L "install_time"; L "role"]
  | KOs => [L "uptime"]
  | KReport => [L "report_version"; L "report_type"; L "user_root"; L "user_local"; L "serial"]
  | _ => []
  end.
Definition text_members (k : kind) : list str := match k with KReport => [L "component_name"] | _ => string_members k end.
Definition documented (k : kind) : list (str * doc) :=
  match k with
  | KCoreFrame =>
    [(L "address", Long (L "address")); (L "build_id", Text (L "build_id")); (L "build_id_offset", Long (L "build_id_offset"));
     (L "function_name", Text (L "function_name")); (L "file_name", Text (L "file_name")); (L "fingerprint", Text (L "fingerprint"));
     (L "fingerprint_hashed", Flag (L "fingerprint_hashed"))]
  | KPythonFrame =>
    [(L "file_name", Text (L "file_name")); (L "special_file", Flag (L "special_file")); (L "file_line", Number (L "file_line") u32);
     (L "function_name", Text (L "function_name")); (L "special_function", Flag (L "special_function"));
     (L "line_contents", Text (L "line_contents"))]
  | KKoopsFrame =>
    [(L "reliable", Flag (L "reliable")); (L "address", Long (L "address")); (L "function_name", Text (L "function_name"));
     (L "function_offset", Long (L "function_offset")); (L "function_length", Long (L "function_length"));
     (L "module_name", Text (L "module_name")); (L "from_address", Long (L "from_address"));
     (L "from_function_name", Text (L "from_function_name")); (L "from_function_offset", Long (L "from_function_offset"));
     (L "from_function_length", Long (L "from_function_length")); (L "from_module_name", Text (L "from_module_name"));
     (L "special_stack", Text (L "special_stack"))]
  | KJavaFrame =>
    [(L "function_name", Text (L "name")); (L "name", Text (L "name")); (L "file_name", Text (L "file_name"));
     (L "file_line", Number (L "file_line") u32); (L "class_path", Text (L "class_path")); (L "is_native", Flag (L "is_native"));
     (L "is_exception", Flag (L "is_exception")); (L "message", Text (L "message"))]
  | KGdbFrame =>
    [(L "function_name", Text (L "function_name")); (L "function_type", Text (L "function_type")); (L "number", Number (L "number") u32);
     (L "source_file", Text (L "source_file")); (L "source_line", Number (L "source_line") u32);
     (L "signal_handler_called", Flag (L "signal_handler_called")); (L "address", Long (L "address"));
     (L "library_name", Text (L "library_name"))]
  | KRubyFrame =>
    [(L "file_name", Text (L "file_name")); (L "file_line", Number (L "file_line") u32); (L "special_function", Flag (L "special_function"));
     (L "function_name", Text (L "function_name")); (L "block_level", Number (L "block_level") u32);
     (L "rescue_level", Number (L "rescue_level") u32)]
  | KJsFrame =>
    [(L "file_name", Text (L "file_name")); (L "file_line", Number (L "file_line") u32); (L "line_column", Number (L "line_column") u32);
     (L "function_name", Text (L "function_name"))]
  | KJavaThread => [(L "name", Text (L "name"))]
  | KGdbThread => [(L "number", Number (L "number") u32)]
  | KGdbLib =>
    [(L "start_address", Long (L "from")); (L "end_address", Long (L "to")); (L "soname", Text (L "soname"));
     (L "symbols", Number (L "symbols") 2)]
  | KCoreStack =>
    [(L "signal", Number (L "signal") 65535); (L "executable", Text (L "executable")); (L "only_crash_thread", Flag (L "only_crash_thread"))]
  | KPythonStack | KRubyStack | KJsStack => [(L "exception_name", Text (L "exception_name"))]
  | KKoopsStack => [(L "version", Text (L "version")); (L "raw_oops", Text (L "raw_oops"))]
  | KRpm =>
    [(L "name", Text (L "name")); (L "epoch", Number (L "epoch") u32); (L "version", Text (L "version")); (L "release", Text (L "release"));
     (L "architecture", Text (L "architecture")); (L "install_time", Long (L "install_time")); (L "role", Number (L "role") 1)]
  | KOs =>
    [(L "name", Text (L "name")); (L "version", Text (L "version")); (L "architecture", Text (L "architecture")); (L "cpe", Text (L "cpe"));
     (L "uptime", Long (L "uptime"))]
  | KReport =>
    [(L "user_root", Flag (L "user_root")); (L "user_local", Flag (L "user_local")); (L "component_name", Text (L "component_name"));
     (L "serial", Number (L "serial") u32)]
  | _ => []
  end.

(** A structure in memory: its numbers [scal], its strings [ss] in the cells [fs], everything else [kids] to [n]. *)
Definition structure (h : heap) (c : addr) (k : kind) (scal : list Z) (ss : list (option str)) (fs : list addr) kids arr raw n : Prop :=
  length scal = length (number_members k) /\ length ss = length (text_members k) /\ ~ In c fs /\ NoDup fs /\
  exists ps, nth_error h c = Some (CObj k scal ps kids arr raw n) /\ own_strs h ps ss fs.
(** [shows k scal ss d x]: the attribute [d] of such a structure has the value [x]; None: reading it raises an exception. *)
Definition number_of (k : kind) (scal : list Z) (m : str) (z : Z) : Prop :=
  exists i, nth_error (number_members k) i = Some m /\ nth_error scal i = Some z.
Definition string_of (k : kind) (ss : list (option str)) (m : str) (s : option str) : Prop :=
  exists i, nth_error (text_members k) i = Some m /\ nth_error ss i = Some s.
Definition shows (k : kind) (scal : list Z) (ss : list (option str)) (d : doc) (x : option pyval) : Prop :=
  match d with
  | Text m => exists s, string_of k ss m s /\
      match s with
      | None => x = Some VNone
      | Some s => (exists t, utf8 t s /\ x = Some (VStr t)) \/ (x = None /\ forall t, ~ utf8 t s)
      end
  | Number m _ => exists z, number_of k scal m z /\ x = Some (VInt z)
  | Long m => exists z, number_of k scal m z /\ x = Some (if z =? u64 then VNone else VInt z)
  | Flag m => exists z, number_of k scal m z /\ x = Some (VBool (negb (z =? 0)))
  end.
(** Bool is a kind of int. *)
Definition is_int (v : pyval) (z : Z) : Prop := v = VInt z \/ (exists b, v = VBool b /\ z = if b then 1 else 0).
(** Zero, the empty string and None are false, other numbers and strings true. *)
Definition is_true (v : pyval) (b : bool) : Prop :=
  match v with
  | VNone => b = false
  | VBool c => b = c
  | VInt z => b = true <-> z <> 0
  | VStr t => b = true <-> t <> []
  | VOther t => t = Some b
  end.
(** [accepts d v x]: [v] may be assigned to [d], which then shows [x]. *)
Definition accepts (d : doc) (v x : pyval) : Prop :=
  match d with
  | Text _ => exists t, v = VStr t /\ storable t /\ x = v
  | Number _ max => exists z, is_int v z /\ 0 <= z <= max /\ x = VInt z
  | Long _ => (v = VNone /\ x = VNone) \/ exists z, is_int v z /\ 0 <= z < u64 /\ x = VInt z
  | Flag _ => exists b, is_true v b /\ x = VBool b
  end.
(** [refuses d v]: assigning [v] raises an exception.  Values of neither kind are those of the refuted cases. *)
Definition refuses (d : doc) (v : pyval) : Prop :=
  match d with
  | Text _ => (forall t, v <> VStr t) \/ (exists t, v = VStr t /\ exists c, In c t /\ surrogate c)
  | Number _ max => (forall z, ~ is_int v z) \/ exists z, is_int v z /\ (z < 0 \/ 2 ^ 63 <= z \/ max < u32 /\ max < z)
  | Long _ => v <> VNone /\ forall z, ~ is_int v z
  | Flag _ => False
  end.
(** A report's attribute report_type is the name of its type. *)
Definition type_names : list (list Z) :=
  map (map ord) [L "invalid"; L "core"; L "python"; L "kerneloops"; L "java"; L "gdb"; L "ruby"; L "javascript"].
