(** * The methods that all frames, threads and stack traces have in Python: python/py_base_frame.c,
    python/py_base_thread.c and python/py_base_stacktrace.c.

    Objects and memory are those of PyModel.v.  The functions of the library these methods call are modelled elsewhere on
    values (CmpModel.v, TextModel.v, DistModel.v, CrashModel.v); here the value is read from memory first, member by
    member, through the pointers.  Not modelled: exhausted memory; the SHA-1 function is a parameter. *)
From Coq Require Import QArith.
From Verif Require Import Base Types CmpModel TextModel DistModel CrashModel HeapModel HeapListModel PyModel PyAttrModel.
Open Scope Z_scope.

(** ** Reading structures *)
(* A member of a structure; the members' positions are those of PyAttrModel.v *)
Definition num (h : heap) (a : addr) (m : str) (t : ctype) : res Z := load_scalar h a m t.
Definition flag (h : heap) (a : addr) (m : str) : res bool := do z <- load_scalar h a m TBool; Ok (negb (z =? 0)).
Definition txt (h : heap) (a : addr) (m : str) : res (option str) := load_string (fun _ => []) h a m.

(* The frame at an address: include/core/frame.h:43-82, include/python/frame.h:41-58, include/koops/frame.h:43-105,
   include/java/frame.h:41-92, include/gdb/frame.h:47-104, include/ruby/frame.h:41-58, include/js/frame.h:41-54.  The
   members are read whether the function in question looks at them or not. *)
Definition load_frame (h : heap) (a : addr) : res frame :=
  do k <- kind_at h a;
  match k with
  | KCoreFrame =>
    do address <- num h a (L "address") TU64; do id <- txt h a (L "build_id"); do off <- num h a (L "build_id_offset") TU64;
    do fn <- txt h a (L "function_name"); do file <- txt h a (L "file_name"); do fp <- txt h a (L "fingerprint");
    do hashed <- flag h a (L "fingerprint_hashed");
    Ok (FCore (mk_core_frame address id off fn file fp hashed))
  | KPythonFrame =>
    do sfile <- flag h a (L "special_file"); do file <- txt h a (L "file_name"); do line <- num h a (L "file_line") TU32;
    do sfn <- flag h a (L "special_function"); do fn <- txt h a (L "function_name"); do text <- txt h a (L "line_contents");
    Ok (FPython (mk_python_frame sfile file line sfn fn text))
  | KKoopsFrame =>
    do address <- num h a (L "address") TU64; do rel <- flag h a (L "reliable"); do fn <- txt h a (L "function_name");
    do off <- num h a (L "function_offset") TU64; do len <- num h a (L "function_length") TU64; do md <- txt h a (L "module_name");
    do faddress <- num h a (L "from_address") TU64; do ffn <- txt h a (L "from_function_name");
    do foff <- num h a (L "from_function_offset") TU64; do flen <- num h a (L "from_function_length") TU64;
    do fmd <- txt h a (L "from_module_name"); do special <- txt h a (L "special_stack");
    Ok (FKoops (mk_koops_frame address rel fn off len md faddress ffn foff flen fmd special))
  | KJavaFrame =>
    do name <- txt h a (L "name"); do file <- txt h a (L "file_name"); do line <- num h a (L "file_line") TU32;
    do path <- txt h a (L "class_path"); do native <- flag h a (L "is_native"); do exc <- flag h a (L "is_exception");
    do msg <- txt h a (L "message");
    Ok (FJava (mk_java_frame name file line path native exc msg))
  | KGdbFrame =>
    do fn <- txt h a (L "function_name"); do ty <- txt h a (L "function_type"); do number <- num h a (L "number") TU32;
    do file <- txt h a (L "source_file"); do line <- num h a (L "source_line") TU32; do sig <- flag h a (L "signal_handler_called");
    do address <- num h a (L "address") TU64; do lib <- txt h a (L "library_name");
    Ok (FGdb (mk_gdb_frame fn ty number file line sig address lib))
  | KRubyFrame =>
    do file <- txt h a (L "file_name"); do line <- num h a (L "file_line") TU32; do sfn <- flag h a (L "special_function");
    do fn <- txt h a (L "function_name"); do block <- num h a (L "block_level") TU32; do rescue <- num h a (L "rescue_level") TU32;
    Ok (FRuby (mk_ruby_frame file line sfn fn block rescue))
  | KJsFrame =>
    do file <- txt h a (L "file_name"); do line <- num h a (L "file_line") TU32; do column <- num h a (L "line_column") TU32;
    do fn <- txt h a (L "function_name");
    Ok (FJs (mk_js_frame file line column fn))
  | _ => UB
  end.
(* following the next pointers *)
Fixpoint load_list {A} (one : heap -> addr -> res A) (fuel : nat) (h : heap) (p : option addr) : res (list A) :=
  match p with
  | None => Ok []
  | Some a =>
    match fuel with
    | O => UB
    | S fuel => do x <- one h a; do n <- next_of h a; do l <- load_list one fuel h n; Ok (x :: l)
    end
  end.
Fixpoint each_as {A B} (f : A -> option B) (l : list A) : res (list B) :=
  match l with
  | [] => Ok []
  | x :: l => match f x with Some y => do r <- each_as f l; Ok (y :: r) | None => UB end
  end.
Definition as_core f := match f with FCore f => Some f | _ => None end.
Definition as_python f := match f with FPython f => Some f | _ => None end.
Definition as_koops f := match f with FKoops f => Some f | _ => None end.
Definition as_java f := match f with FJava f => Some f | _ => None end.
Definition as_gdb f := match f with FGdb f => Some f | _ => None end.
Definition as_ruby f := match f with FRuby f => Some f | _ => None end.
Definition as_js f := match f with FJs f => Some f | _ => None end.
(* the frames of a thread, which are of the thread's type *)
Definition load_frames {F} (as_f : frame -> option F) (h : heap) (t : addr) : res (list F) :=
  do p <- thread_frames h t;
  do l <- load_list load_frame (length h) h p;
  each_as as_f l.
(* g_strv: the modules of a kernel oops *)
Fixpoint load_strs (h : heap) (items : list addr) : res (list str) :=
  match items with
  | [] => Ok []
  | a :: r => do s <- get_str h a; do l <- load_strs h r; Ok (s :: l)
  end.
Definition load_modules (h : heap) (a : addr) : res (option (list str)) :=
  do c <- get h a;
  match c with
  | CObj _ _ _ _ None _ _ => Ok None
  | CObj _ _ _ _ (Some p) _ _ => do x <- get h p; match x with CArr items => do l <- load_strs h items; Ok (Some l) | _ => UB end
  | _ => UB
  end.
(* The thread or single-threaded stack trace at an address: include/core/thread.h:43-61, include/gdb/thread.h:46-69,
   include/java/thread.h:47-66 and the headers of the stack traces cited in PyAttrModel.v.  Simplification: the taint
   flags of a kernel oops and the platform of a JavaScript stack trace are not read; no function below uses them. *)
Definition load_thread (h : heap) (a : addr) : res thread :=
  do k <- kind_at h a;
  match k with
  | KCoreThread => do fs <- load_frames as_core h a; Ok (TCore (mk_core_thread fs))
  | KJavaThread => do n <- txt h a (L "name"); do fs <- load_frames as_java h a; Ok (TJava (mk_java_thread n fs))
  | KGdbThread =>
    do n <- num h a (L "number") TU32; do tid <- num h a (L "tid") TU32; do fs <- load_frames as_gdb h a;
    Ok (TGdb (mk_gdb_thread n tid fs))
  | KPythonStack => do n <- txt h a (L "exception_name"); do fs <- load_frames as_python h a; Ok (TPython (mk_python_stacktrace n fs))
  | KRubyStack => do n <- txt h a (L "exception_name"); do fs <- load_frames as_ruby h a; Ok (TRuby (mk_ruby_stacktrace n fs))
  | KJsStack => do n <- txt h a (L "exception_name"); do fs <- load_frames as_js h a; Ok (TJs (mk_js_stacktrace n fs 0))
  | KKoopsStack =>
    do v <- txt h a (L "version"); do ms <- load_modules h a; do raw <- txt h a (L "raw_oops"); do r <- txt h a (L "reason");
    do fs <- load_frames as_koops h a;
    Ok (TKoops (mk_koops_stacktrace v no_taint ms raw fs r))
  | _ => UB
  end.
Definition as_core_thread t := match t with TCore t => Some t | _ => None end.
Definition as_java_thread t := match t with TJava t => Some t | _ => None end.
Definition as_gdb_thread t := match t with TGdb t => Some t | _ => None end.
Definition load_threads {T} (as_t : thread -> option T) (h : heap) (p : option addr) : res (list T) :=
  do l <- load_list load_thread (length h) h p; each_as as_t l.
(* include/gdb/sharedlib.h:45-52 *)
Definition load_lib (h : heap) (a : addr) : res gdb_sharedlib :=
  do from <- num h a (L "from") TU64; do to <- num h a (L "to") TU64; do sym <- num h a (L "symbols") TEnum; do so <- txt h a (L "soname");
  Ok (mk_gdb_sharedlib from to sym so).
(* The stack trace at an address: include/core/stacktrace.h:43-63, include/java/stacktrace.h:40-48, include/gdb/stacktrace.h:50-80.
   The number of a gdb stack trace is its crash_tid.  The crash thread of a core stack trace is left out: the function
   that uses it, [short_text] below, follows the pointer itself. *)
Definition load_stack (h : heap) (a : addr) : res stacktrace :=
  do k <- kind_at h a;
  match k with
  | KCoreStack =>
    do sig <- num h a (L "signal") TU16; do exe <- txt h a (L "executable"); do p <- thread_frames h a;
    do ts <- load_threads as_core_thread h p; do only <- flag h a (L "only_crash_thread");
    Ok (SCore (mk_core_stacktrace sig exe None ts only))
  | KJavaStack => do p <- thread_frames h a; do ts <- load_threads as_java_thread h p; Ok (SJava (mk_java_stacktrace ts))
  | KGdbStack =>
    do c <- get h a;
    match c with
    | CObj _ [tid] _ [crash; threads; libs] _ _ _ =>
      do ts <- load_threads as_gdb_thread h threads;
      do cr <- match crash with None => Ok None | Some x => do f <- load_frame h x; match f with FGdb f => Ok (Some f) | _ => UB end end;
      do ls <- load_list load_lib (length h) h libs;
      Ok (SGdb (mk_gdb_stacktrace ts cr ls tid))
    | _ => UB
    end
  | KPythonStack | KRubyStack | KJsStack | KKoopsStack =>
    do t <- load_thread h a;
    match t with TPython s => Ok (SPython s) | TRuby s => Ok (SRuby s) | TJs s => Ok (SJs s) | TKoops s => Ok (SKoops s) | _ => UB end
  | _ => UB
  end.

(** ** Methods *)
Inductive exc := TypeError | ValueError | RuntimeError | OverflowError | UnicodeDecodeError | SystemError | AttributeError | NotImplementedError | LookupError.
(* What a C function gives to the interpreter.  [NullAlone] and [ValueAnd] break its rules - NULL without an exception, a
   value with an exception set - and end in a SystemError. *)
Inductive answer (A : Type) := Value (a : A) | Raise (e : exc) | NullAlone | ValueAnd (a : A) (e : exc).
Arguments Value {A}. Arguments Raise {A}. Arguments NullAlone {A}. Arguments ValueAnd {A}.
Definition method A := res (state * answer A).
(* PyArg_ParseTuple, "i" *)
Definition is_c_int (z : Z) : bool := (-2147483648 <=? z) && (z <=? 2147483647).
(* an int as enum sr_duphash_flags or sr_bthash_flags *)
Definition flags_of (z : Z) : N := Z.to_N (z mod 2 ^ 32).
(* PyString_FromString is PyUnicode_FromString: python/py_common.h:143 *)
Definition py_string (s : str) : answer (list Z) := match from_utf8 s with Some t => Value t | None => Raise UnicodeDecodeError end.
Definition struct_at (st : state) (r : ref) : res (kind * addr) :=
  do (_, b) <- obj st r; match b with PyStruct k c _ => Ok (k, c) | _ => UB end.
(* "O!" with sr_py_base_frame_type and sr_py_base_thread_type: the base types of frames, and of threads and
   single-threaded stack traces (python/py_base_stacktrace.c:91 and the tp_base of each type) *)
Definition frame_struct (k : kind) : bool :=
  match k with KCoreFrame | KPythonFrame | KKoopsFrame | KJavaFrame | KGdbFrame | KRubyFrame | KJsFrame => true | _ => false end.
Definition thread_struct (k : kind) : bool := match frame_kind k with Some _ => true | None => false end.
Definition instance (of : kind -> bool) (st : state) (r : ref) : res bool :=
  do (_, b) <- obj st r; match b with PyStruct k _ _ => Ok (of k) | _ => Ok false end.
(* python/py_common.c:208-217 normalize_cmp *)
Definition normalize_cmp (n : Z) : Z := if 0 <? n then 1 else if n <? 0 then -1 else 0.

(* python/py_base_frame.c:94-106 sr_py_base_frame_short_string *)
Definition frame_short_string (st : state) (r : ref) : method (list Z) :=
  do (k, c) <- struct_at st r;
  do f <- load_frame (mem st) c;
  do s <- sr_frame_append_to_str f;
  Ok (st, py_string s).
(* python/py_base_frame.c:108-118 sr_py_base_frame_cmp.  Simplification: the difference of the addresses of two distinct
   types is some number other than 0; the sign does not matter. *)
Definition frame_cmp (st : state) (r other : ref) : res Z :=
  do (k, c) <- struct_at st r;
  do (k', d) <- struct_at st other;
  if negb (kind_beq k k') then Ok 1
  else
    do f <- load_frame (mem st) c;
    do g <- load_frame (mem st) d;
    Ok (normalize_cmp (sr_frame_cmp f g)).
(* python/py_base_frame.c:120-133 sr_py_base_frame_equals *)
Definition frame_equals (st : state) (r other : ref) : method bool :=
  do ok <- instance frame_struct st other;
  if negb ok then Ok (st, Raise TypeError)
  else do n <- frame_cmp st r other; Ok (st, Value (n =? 0)).

(* lib/generic_thread.c:155-162 sr_thread_cmp; the tables of the four single-threaded types have no entry for it
   (lib/python_stacktrace.c:48, lib/koops_stacktrace.c:73, lib/ruby_stacktrace.c:47, lib/js_stacktrace.c:49), which
   DISPATCH asserts (lib/internal_utils.h:37-39).  The threads are of the same type here. *)
Definition sr_thread_cmp (t u : thread) : res Z :=
  match t, u with
  | TCore t, TCore u => Ok (core_thread_cmp t u)
  | TJava t, TJava u => Ok (java_thread_cmp t u)
  | TGdb t, TGdb u => Ok (gdb_thread_cmp t u)
  | _, _ => UB
  end.
(* python/py_base_thread.c:188-206 sr_py_base_thread_cmp: the result, and whether an exception is set *)
Definition thread_cmp (st : state) (r other : ref) : res (state * (Z * bool)) :=
  do (k, c) <- struct_at st r;
  do (k', d) <- struct_at st other;
  if negb (kind_beq k k') then Ok (st, (1, false))
  else
    do (st, ok) <- frames_prepare st r;
    if negb ok then Ok (st, (-1, true))
    else
      do (st, ok) <- frames_prepare st other;
      if negb ok then Ok (st, (-1, true))
      else
        do t <- load_thread (mem st) c;
        do u <- load_thread (mem st) d;
        do n <- sr_thread_cmp t u;
        Ok (st, (normalize_cmp n, false)).
(* python/py_base_thread.c:208-221 sr_py_base_thread_equals *)
Definition thread_equals (st : state) (r other : ref) : method bool :=
  do ok <- instance thread_struct st other;
  if negb ok then Ok (st, Raise TypeError)
  else
    do (st, (n, e)) <- thread_cmp st r other;
    Ok (st, if e then ValueAnd (n =? 0) TypeError else Value (n =? 0)).

(* include/distance.h:41-87 enum sr_distance_type *)
Definition distance_of (z : Z) : distance_type :=
  if z =? 0 then JARO_WINKLER else if z =? 1 then JACCARD else if z =? 2 then LEVENSHTEIN else if z =? 3 then DAMERAU_LEVENSHTEIN else NUM.
Definition thread_tag (t : thread) : nat :=
  match t with TCore _ => 1 | TPython _ => 2 | TKoops _ => 3 | TJava _ => 4 | TGdb _ => 5 | TRuby _ => 6 | TJs _ => 7 end%nat.
(* python/py_base_thread.c:224-258 sr_py_base_thread_distance; the float is the rational number of DistModel.v *)
Definition thread_distance (st : state) (r other : ref) (dist_type : Z) : method Q :=
  do ok <- instance thread_struct st other;
  if negb ok then Ok (st, Raise TypeError)
  else if negb (is_c_int dist_type) then Ok (st, Raise OverflowError)
  else
    do (st, ok) <- frames_prepare st r;
    if negb ok then Ok (st, Raise TypeError)
    else
      do (st, ok) <- frames_prepare st other;
      if negb ok then Ok (st, Raise TypeError)
      else
        do (k, c) <- struct_at st r;
        do (k', d) <- struct_at st other;
        if negb (kind_beq k k') then Ok (st, Raise TypeError)
        else if (dist_type <? 0) || (4 <=? dist_type) then Ok (st, Raise ValueError)
        else
          do t <- load_thread (mem st) c;
          do u <- load_thread (mem st) d;
          do q <- sr_distance frame_same (distance_of dist_type) (thread_tag t, sr_thread_frames t) (thread_tag u, sr_thread_frames u);
          Ok (st, Value q).

Section Hash.
Variable sha1 : str -> str.

(* python/py_base_thread.c:260-287 sr_py_base_thread_get_duphash *)
Definition thread_get_duphash (st : state) (r : ref) (frames flags : Z) (prefix : option str) : method (list Z) :=
  if negb (is_c_int frames && is_c_int flags) then Ok (st, Raise OverflowError)
  else
    do (st, ok) <- frames_prepare st r;
    if negb ok then Ok (st, Raise TypeError)
    else
      do (_, c) <- struct_at st r;
      do t <- load_thread (mem st) c;
      do x <- sr_thread_get_duphash sha1 t frames prefix (flags_of flags);
      Ok (st, match x with None => Raise RuntimeError | Some s => py_string s end).

(* python/py_base_stacktrace.c:306-328 sr_py_single_stacktrace_get_bthash and 330-352 sr_py_multi_stacktrace_get_bthash,
   which gdb stack traces inherit; [prepare] is what they call first *)
Definition get_bthash (prepare : state -> ref -> res (state * bool)) (st : state) (r : ref) (flags : Z) : method (list Z) :=
  if negb (is_c_int flags) then Ok (st, Raise OverflowError)
  else
    do (st, ok) <- prepare st r;
    if negb ok then Ok (st, Raise TypeError)
    else
      do (_, c) <- struct_at st r;
      do s <- load_stack (mem st) c;
      Ok (st, py_string (sr_stacktrace_get_bthash sha1 s (flags_of flags))).
Definition single_get_bthash := get_bthash frames_prepare.
Definition multi_get_bthash := get_bthash threads_prepare.
End Hash.

(* lib/generic_stacktrace.c:135-139 sr_stacktrace_to_short_text in memory: a core stack trace that knows its crash
   thread uses that pointer (lib/core_stacktrace.c:140-142) *)
Definition short_text (h : heap) (c : addr) (max_frames : Z) : res (option str) :=
  do k <- kind_at h c;
  do crash <- match k with KCoreStack => core_known_crash_thread h c | _ => Ok None end;
  match crash with
  | Some t => do t <- load_thread h t; do s <- short_text_loop (sr_thread_frames t) 0 max_frames; Ok (Some s)
  | None => do s <- load_stack h c; sr_stacktrace_to_short_text s max_frames
  end.
(* python/py_base_stacktrace.c:259-279 sr_py_single_stacktrace_to_short_text and 281-302
   sr_py_multi_stacktrace_to_short_text *)
Definition to_short_text (prepare : state -> ref -> res (state * bool)) (st : state) (r : ref) (max_frames : Z) : method (list Z) :=
  if negb (is_c_int max_frames) then Ok (st, Raise OverflowError)
  else
    do (st, ok) <- prepare st r;
    if negb ok then Ok (st, Raise TypeError)
    else
      do (_, c) <- struct_at st r;
      do x <- short_text (mem st) c max_frames;
      Ok (st, match x with None => NullAlone | Some s => py_string s end).
Definition single_to_short_text := to_short_text frames_prepare.
Definition multi_to_short_text := to_short_text threads_prepare.

(* python/py_gdb_stacktrace.c:448-458 sr_py_gdb_stacktrace_quality_simple and 460-470
   sr_py_gdb_stacktrace_quality_complex *)
Definition gdb_quality (quality : gdb_stacktrace -> Q) (st : state) (r : ref) : method Q :=
  do (st, ok) <- gdb_prepare st r;
  if negb ok then Ok (st, Raise TypeError)
  else
    do (_, c) <- struct_at st r;
    do s <- load_stack (mem st) c;
    match s with SGdb s => Ok (st, Value (quality s)) | _ => UB end.
Definition quality_simple := gdb_quality sr_gdb_stacktrace_quality_simple.
Definition quality_complex := gdb_quality sr_gdb_stacktrace_quality_complex.
(* python/py_gdb_stacktrace.c:472-503 sr_py_gdb_stacktrace_find_address; the argument is read as a long and taken as
   unsigned; the items have been checked to be shared libraries.  The value is a new reference to the item, or None. *)
Fixpoint find_lib (st : state) (items : list ref) (address : Z) : res (option ref) :=
  match items with
  | [] => Ok None
  | r :: items =>
    do (_, c) <- struct_at st r;
    do from <- num (mem st) c (L "from") TU64;
    do to <- num (mem st) c (L "to") TU64;
    if (from <=? address) && (address <=? to) then Ok (Some r) else find_lib st items address
  end.
Definition find_address (st : state) (r : ref) (address : Z) : method (option ref) :=
  do (st, ok) <- gdb_prepare st r;
  if negb ok then Ok (st, Raise TypeError)
  else if negb ((- 2 ^ 63 <=? address) && (address <? 2 ^ 63)) then Ok (st, Raise OverflowError)
  else
    let address := address mod 2 ^ 64 in
    if address =? 2 ^ 64 - 1 then Ok (st, Value None)
    else
      do (_, b) <- obj st r;
      match b with
      | PyStruct _ _ (_ :: libs :: _) =>
        do items <- items_of st libs;
        do x <- find_lib st items address;
        match x with
        | None => Ok (st, Value None)
        | Some item => do st <- incref st item; Ok (st, Value (Some item))
        end
      | _ => UB
      end.
