(** * Creating frames, threads and stack traces in Python: the constructors and from_json.

    The parsers of the library are modelled elsewhere on values; here the value a parser returns is put into memory and
    wrapped.  Objects, memory and answers are those of PyModel.v and PyBaseModel.v.  The argument of a constructor is a
    string without NUL characters, as a C string, or missing; arguments of other types are refused by PyArg_ParseTuple.
    Not modelled: exhausted memory, the text of the exception (location.message), and the texts of messages that are
    never freed. *)
From Verif Require Import Base Types UtilsModel JsonSpec JsonTypesModel TextModel SystemModel ReportModel PyParseModel RubyParseModel JavaParseModel JsParseModel
  KoopsModel GdbParseModel GdbLibModel FunsModel AbrtModel HeapModel HeapListModel PyModel PyAttrModel PyBaseModel PyReportModel.
Open Scope Z_scope.

(** ** Structures in memory *)
(* What g_malloc and g_strdup leave behind when a structure is filled in.  Simplification: the strings are allocated
   first, then the array and the structure, and a list from its end; nothing else happens to memory in between.  The positions of
   the members are those of PyAttrModel.v. *)
Fixpoint place_strs (h : heap) (ss : list (option str)) : heap * list (option addr) :=
  match ss with
  | [] => (h, [])
  | None :: ss => let '(h, ps) := place_strs h ss in (h, None :: ps)
  | Some s :: ss => let '(h, a) := alloc h (CStr s) in let '(h, ps) := place_strs h ss in (h, Some a :: ps)
  end.
Fixpoint place_items (h : heap) (ss : list str) : heap * list addr :=
  match ss with
  | [] => (h, [])
  | s :: ss => let '(h, a) := alloc h (CStr s) in let '(h, l) := place_items h ss in (h, a :: l)
  end.
Definition place_arr (h : heap) (arr : option (list str)) : heap * option addr :=
  match arr with
  | None => (h, None)
  | Some ss => let '(h, items) := place_items h ss in let '(h, a) := alloc h (CArr items) in (h, Some a)
  end.
Definition place (h : heap) (k : kind) (scal : list Z) (ss : list (option str)) (arr : option (list str)) (kids raw : list (option addr))
    (next : option addr) : heap * addr :=
  let '(h, ps) := place_strs h ss in
  let '(h, pa) := place_arr h arr in
  alloc h (CObj k scal ps kids pa raw next).
(* a linked list: the addresses of its elements *)
Fixpoint place_list {A} (one : heap -> A -> option addr -> heap * addr) (h : heap) (l : list A) : heap * list addr :=
  match l with
  | [] => (h, [])
  | x :: l =>
    let '(h, rest) := place_list one h l in
    let '(h, a) := one h x (hd_error rest) in
    (h, a :: rest)
  end.
Definition b2z (b : bool) : Z := if b then 1 else 0.
(* include/core/frame.h:43-82, include/python/frame.h:41-58, include/koops/frame.h:43-105, include/java/frame.h:41-92,
   include/gdb/frame.h:47-104, include/ruby/frame.h:41-58, include/js/frame.h:41-54 *)
Definition place_frame (h : heap) (f : frame) (next : option addr) : heap * addr :=
  match f with
  | FCore f => place h KCoreFrame [cf_address f; cf_build_id_offset f; b2z (cf_fingerprint_hashed f)]
                 [cf_build_id f; cf_function_name f; cf_file_name f; cf_fingerprint f] None [] [] next
  | FPython f => place h KPythonFrame [b2z (pf_special_file f); pf_file_line f; b2z (pf_special_function f)]
                   [pf_file_name f; pf_function_name f; pf_line_contents f] None [] [] next
  | FKoops f => place h KKoopsFrame [kf_address f; b2z (kf_reliable f); kf_function_offset f; kf_function_length f; kf_from_address f;
                                     kf_from_function_offset f; kf_from_function_length f]
                  [kf_function_name f; kf_module_name f; kf_from_function_name f; kf_from_module_name f; kf_special_stack f] None [] [] next
  | FJava f => place h KJavaFrame [vf_file_line f; b2z (vf_is_native f); b2z (vf_is_exception f)]
                 [vf_name f; vf_file_name f; vf_class_path f; vf_message f] None [] [] next
  | FGdb f => place h KGdbFrame [gf_number f; gf_source_line f; b2z (gf_signal_handler_called f); gf_address f]
                [gf_function_name f; gf_function_type f; gf_source_file f; gf_library_name f] None [] [] next
  | FRuby f => place h KRubyFrame [rf_file_line f; b2z (rf_special_function f); rf_block_level f; rf_rescue_level f]
                 [rf_file_name f; rf_function_name f] None [] [] next
  | FJs f => place h KJsFrame [jf_file_line f; jf_line_column f] [jf_file_name f; jf_function_name f] None [] [] next
  end.
(* include/core/thread.h:43-61, include/java/thread.h:47-66, include/gdb/thread.h:46-69, include/python/stacktrace.h:40-48,
   include/koops/stacktrace.h:41-95 (the taint flags in the order of Types.v), include/ruby/stacktrace.h:40-47,
   include/js/stacktrace.h:41-50 (the platform) *)
Definition place_thread (h : heap) (t : thread) (next : option addr) : heap * addr :=
  match t with
  | TCore t => let '(h, fs) := place_list place_frame h (map FCore (ct_frames t)) in place h KCoreThread [] [] None [hd_error fs] [] next
  | TJava t => let '(h, fs) := place_list place_frame h (map FJava (vt_frames t)) in place h KJavaThread [] [vt_name t] None [hd_error fs] [] next
  | TGdb t => let '(h, fs) := place_list place_frame h (map FGdb (gt_frames t)) in
      place h KGdbThread [gt_number t; gt_tid t] [] None [hd_error fs] [] next
  | TPython t => let '(h, fs) := place_list place_frame h (map FPython (ps_frames t)) in
      place h KPythonStack [] [ps_exception_name t] None [hd_error fs] [] next
  | TRuby t => let '(h, fs) := place_list place_frame h (map FRuby (rs_frames t)) in
      place h KRubyStack [] [rs_exception_name t] None [hd_error fs] [] next
  | TJs t => let '(h, fs) := place_list place_frame h (map FJs (js_frames t)) in
      place h KJsStack [js_platform t] [js_exception_name t] None [hd_error fs] [] next
  | TKoops t => let '(h, fs) := place_list place_frame h (map FKoops (ks_frames t)) in
      place h KKoopsStack (map b2z (ks_taint t)) [ks_version t; ks_raw_oops t; ks_reason t] (ks_modules t) [hd_error fs] [] next
  end.
(* include/gdb/sharedlib.h:45-52 *)
Definition place_lib (h : heap) (l : gdb_sharedlib) (next : option addr) : heap * addr :=
  place h KGdbLib [gl_from l; gl_to l; gl_symbols l] [gl_soname l] None [] [] next.
(* include/core/stacktrace.h:43-63, include/java/stacktrace.h:40-48, include/gdb/stacktrace.h:50-80; the crash thread of a
   core stack trace is one of its threads *)
Definition place_stack (h : heap) (s : stacktrace) : heap * addr :=
  match s with
  | SCore s =>
    let '(h, ts) := place_list place_thread h (map TCore (cs_threads s)) in
    place h KCoreStack [cs_signal s; b2z (cs_only_crash_thread s)] [cs_executable s] None [hd_error ts]
      [match cs_crash_thread s with Some i => nth_error ts i | None => None end] None
  | SJava s => let '(h, ts) := place_list place_thread h (map TJava (vs_threads s)) in place h KJavaStack [] [] None [hd_error ts] [] None
  | SGdb s =>
    let '(h, crash) := place_list place_frame h (match gs_crash s with Some f => [FGdb f] | None => [] end) in
    let '(h, ts) := place_list place_thread h (map TGdb (gs_threads s)) in
    let '(h, libs) := place_list place_lib h (gs_libs s) in
    place h KGdbStack [gs_crash_tid s] [] None [hd_error crash; hd_error ts; hd_error libs] [] None
  | SPython s => place_thread h (TPython s) None
  | SRuby s => place_thread h (TRuby s) None
  | SJs s => place_thread h (TJs s) None
  | SKoops s => place_thread h (TKoops s) None
  end.

(** ** Frames *)
(* What a parser returns; None: NULL, and location.message says why *)
Definition parsed {A B} (f : A -> B) (r : res (A * str)) : res (option B) :=
  match r with Ok (x, _) => Ok (Some (f x)) | Fail => Ok None | UB => UB end.
(* PyObject_New, and the structure it wraps *)
Definition wrap_frame (st : state) (k : kind) (f : frame) : method ref :=
  let '(h, a) := place_frame (mem st) f None in
  let '(st, r) := new_obj (with_mem st h) (PyStruct k a []) in
  Ok (st, Value r).
(* NULL is returned with an exception; the object made by PyObject_New at the start of the function is not released.  Its
   members are not initialised and nobody refers to it. *)
Definition give_up (st : state) : method ref := Ok (fst (new_obj st PyOther), Raise ValueError).
Definition frame_or (st : state) (k : kind) (r : res (option frame)) : method ref :=
  do f <- r;
  match f with Some f => wrap_frame st k f | None => give_up st end.
(* python/py_core_frame.c:123-135 sr_py_core_frame_new, python/py_gdb_frame.c:176-205, python/py_java_frame.c:125-154,
   python/py_python_frame.c:122-151, python/py_ruby_frame.c:122-151, python/py_js_frame.c:118-147,
   python/py_koops_frame.c:137-158.  The constructor of core frames does not look at its arguments; that of kernel oops
   frames wraps NULL when the text is no frame, which here is an address that is never valid. *)
Definition frame_new (st : state) (k : kind) (arg : option str) : method ref :=
  match k, arg with
  | KCoreFrame, _ => wrap_frame st k (FCore core_frame_new)
  | KGdbFrame, None => wrap_frame st k (FGdb gdb_frame_new)
  | KJavaFrame, None => wrap_frame st k (FJava java_frame_new)
  | KPythonFrame, None => wrap_frame st k (FPython python_frame_new)
  | KRubyFrame, None => wrap_frame st k (FRuby ruby_frame_new)
  | KJsFrame, None => wrap_frame st k (FJs js_frame_new)
  | KKoopsFrame, None => wrap_frame st k (FKoops koops_frame_new)
  | KGdbFrame, Some s => frame_or st k (parsed FGdb (sr_gdb_frame_parse s))
  | KJavaFrame, Some s => frame_or st k (parsed FJava (sr_java_frame_parse s))
  | KPythonFrame, Some s => frame_or st k (do (f, _) <- sr_python_frame_parse s; Ok (option_map FPython f))
  | KRubyFrame, Some s => frame_or st k (parsed FRuby (sr_ruby_frame_parse s))
  | KJsFrame, Some s => frame_or st k (parsed FJs (sr_js_frame_parse s))
  | KKoopsFrame, Some s =>
    match sr_koops_frame_parse s with
    | Some (f, _) => wrap_frame st k (FKoops f)
    | None =>
      let '(h, null) := alloc (mem st) CFree in
      let '(st, r) := new_obj (with_mem st h) (PyStruct k null []) in
      Ok (st, Value r)
    end
  | _, _ => UB
  end.
(* python/py_gdb_sharedlib.c:84-97 sr_py_gdb_sharedlib_new; lib/gdb_sharedlib.c:35-43 sr_gdb_sharedlib_init *)
Definition gdb_sharedlib_new : gdb_sharedlib := mk_gdb_sharedlib ulong_max ulong_max 2 None.
Definition py_sharedlib_new (st : state) : method ref :=
  let '(h, a) := place_lib (mem st) gdb_sharedlib_new None in
  let '(st, r) := new_obj (with_mem st h) (PyStruct KGdbLib a []) in
  Ok (st, Value r).

(** ** Threads *)
(* The structure and the list of its frames.  Simplification: the object is created last, not first *)
Definition wrap_thread (st : state) (k fk : kind) (t : thread) : method ref :=
  let '(h, a) := place_thread (mem st) t None in
  do (st, l) <- frames_to_python (with_mem st h) fk a;
  let '(st, r) := new_obj st (PyStruct k a [Some l]) in
  Ok (st, Value r).
(* PyList_New(0) *)
Definition empty_thread (st : state) (k : kind) (t : thread) : method ref :=
  let '(st, l) := new_obj st (PyList []) in
  let '(h, a) := place_thread (mem st) t None in
  let '(st, r) := new_obj (with_mem st h) (PyStruct k a [Some l]) in
  Ok (st, Value r).
Definition thread_or (st : state) (k fk : kind) (r : res (option thread)) : method ref :=
  do t <- r;
  match t with Some t => wrap_thread st k fk t | None => give_up st end.
(* lib/java_thread.c:74-81 sr_java_thread_init *)
Definition java_thread_new : java_thread := mk_java_thread None [].
(* python/py_core_thread.c:94-109 sr_py_core_thread_new, python/py_gdb_thread.c:109-155, python/py_java_thread.c:109-146;
   [only_funs] is the second argument of the constructor of gdb threads *)
Definition thread_new (st : state) (k : kind) (arg : option str) (only_funs : Z) : method ref :=
  match k, arg with
  | KCoreThread, _ => empty_thread st k (TCore (mk_core_thread []))
  | KGdbThread, None => empty_thread st k (TGdb gdb_thread_new)
  | KJavaThread, None => empty_thread st k (TJava java_thread_new)
  | KGdbThread, Some s =>
    if only_funs =? 0 then thread_or st k KGdbFrame (parsed TGdb (sr_gdb_thread_parse s))
    else do t <- sr_gdb_thread_parse_funs (Some s); wrap_thread st k KGdbFrame (TGdb t)
  | KJavaThread, Some s => thread_or st k KJavaFrame (parsed TJava (sr_java_thread_parse s))
  | _, _ => UB
  end.

(** ** Stack traces *)
(* The structures sr_core_stacktrace_new and so on make: lib/core_stacktrace.c:77-86, lib/python_stacktrace.c:90-95,
   lib/koops_stacktrace.c:114-119, lib/java_stacktrace.c:72-77, lib/gdb_stacktrace.c:85-93, lib/ruby_stacktrace.c:89-94,
   lib/js_stacktrace.c:91-96 *)
Definition new_stack (k : kind) : option stacktrace :=
  match k with
  | KCoreStack => Some (SCore core_stacktrace_new)
  | KJavaStack => Some (SJava (mk_java_stacktrace []))
  | KGdbStack => Some (SGdb (mk_gdb_stacktrace [] None [] 4294967295))
  | KPythonStack => Some (SPython (mk_python_stacktrace None []))
  | KRubyStack => Some (SRuby (mk_ruby_stacktrace None []))
  | KJsStack => Some (SJs (mk_js_stacktrace None [] 0))
  | KKoopsStack => Some (SKoops koops_stacktrace_new)
  | _ => None
  end.
Section Stacks.
Variable none : ref.                     (* Py_None *)
Variable tokener : str -> option json.   (* json_tokener_parse_verbose; None is NULL *)

(* python/py_core_stacktrace.c:136-162 sr_py_core_stacktrace_new, python/py_java_stacktrace.c:98-124,
   python/py_python_stacktrace.c:118-144, python/py_ruby_stacktrace.c:113-139, python/py_js_stacktrace.c:133-159,
   python/py_koops_stacktrace.c:175-201; here nothing has been created when the parser fails.  The wrapping functions are
   [stack_to_python] of PyReportModel.v, and python/py_js_stacktrace.c:113-130 js_stacktrace_to_python_obj. *)
Definition stack_parse (k : kind) (s : str) : res (option stacktrace) :=
  match k with
  | KCoreStack => match sr_core_stacktrace_from_json_text tokener s with Ok x => Ok (Some (SCore x)) | Fail => Ok None | UB => UB end
  | KJavaStack => parsed SJava (sr_java_stacktrace_parse s)
  | KPythonStack => parsed SPython (sr_python_stacktrace_parse s)
  | KRubyStack => parsed SRuby (sr_ruby_stacktrace_parse s)
  | KJsStack => parsed SJs (sr_js_stacktrace_parse s)
  | KKoopsStack => parsed SKoops (sr_koops_stacktrace_parse s)
  | KGdbStack => parsed SGdb (sr_gdb_stacktrace_parse s)
  | _ => UB
  end.
Definition wrap_stack (st : state) (k : kind) (s : stacktrace) : method ref :=
  let '(h, a) := place_stack (mem st) s in
  do (st, r) <- stack_to_python (with_mem st h) k a;
  Ok (st, Value r).
(* python/py_gdb_stacktrace.c:276-321 sr_py_gdb_stacktrace_new, after the parser: the two lists; crashframe is None, without
   a reference to it *)
Definition gdb_libs (h : heap) (a : addr) : res (option addr) :=
  do x <- get h a;
  match x with CObj KGdbStack _ _ [_; _; p] _ _ _ => Ok p | _ => UB end.
Definition wrap_gdb (st : state) (s : gdb_stacktrace) : method ref :=
  let '(h, a) := place_stack (mem st) (SGdb s) in
  do (st, threads) <- threads_to_python (with_mem st h) KGdbStack a;
  do p <- gdb_libs (mem st) a;
  do (st, libs) <- wrap_list KGdbLib st p;
  let '(st, r) := new_obj st (PyStruct KGdbStack a [Some threads; Some libs; Some none]) in
  Ok (st, Value r).
Definition empty_gdb (st : state) (s : gdb_stacktrace) : method ref :=
  let '(st, threads) := new_obj st (PyList []) in
  let '(h, a) := place_stack (mem st) (SGdb s) in
  let '(st, libs) := new_obj (with_mem st h) (PyList []) in
  let '(st, r) := new_obj st (PyStruct KGdbStack a [Some threads; Some libs; Some none]) in
  Ok (st, Value r).
Definition stack_new (st : state) (k : kind) (arg : option str) : method ref :=
  match arg with
  | None =>
    match new_stack k with
    | Some (SGdb s) => empty_gdb st s
    | Some s => wrap_stack st k s
    | None => UB
    end
  | Some text =>
    do s <- stack_parse k text;
    match s with
    | Some (SGdb s) => wrap_gdb st s
    | Some s => wrap_stack st k s
    | None => match k with KGdbStack => give_up st | _ => Ok (st, Raise ValueError) end
    end
  end.

(** ** from_json *)
(* the member "type" of the structure, include/report_type.h:32-45 *)
Definition type_of_stack (k : kind) : nat :=
  match k with
  | KCoreStack => 1 | KPythonStack => 2 | KKoopsStack => 3 | KJavaStack => 4 | KGdbStack => 5 | KRubyStack => 6 | KJsStack => 7 | _ => 0
  end.
(* lib/generic_stacktrace.c:108-133 sr_stacktrace_from_json_text; for gdb, lib/gdb_stacktrace.c:48-53 gdb_from_json *)
Definition from_json_text (k : kind) (text : str) : res (option stacktrace) :=
  match k with
  | KGdbStack => Ok None
  | _ => sr_stacktrace_from_json_text tokener (type_of_stack k) text
  end.
(* python/py_base_stacktrace.c:415-447 sr_py_single_stacktrace_from_json and 449-479 sr_py_multi_stacktrace_from_json: the
   class is called without arguments, what it made is taken apart, and the structure read from the text takes its place.
   When the text cannot be read the object, without its structure and list, is not released.
   Simplification: the classes cannot be subclassed, so the call is that of [stack_new]. *)
Definition py_from_json (st : state) (k : kind) (text : str) : method ref :=
  do (st, x) <- stack_new st k None;
  match x with
  | Value r =>
    do (n, b) <- obj st r;
    match b with
    | PyStruct k c (Some l :: attrs) =>
      do st <- decref st l;
      do h <- match frame_kind k with Some _ => set_frames (mem st) c None | None => set_threads k (mem st) c None end;
      do h <- sr_free k h c;
      do s <- from_json_text k text;
      match s with
      | None => Ok (set_obj (with_mem st h) r (Some (n, PyOther)), Raise ValueError)
      | Some s =>
        let '(h, a) := place_stack h s in
        do (st, l) <- match frame_kind k with Some fk => frames_to_python (with_mem st h) fk a | None => threads_to_python (with_mem st h) k a end;
        Ok (set_obj st r (Some (n, PyStruct k a (Some l :: attrs))), Value r)
      end
    | _ => UB
    end
  | _ => UB
  end.
End Stacks.
