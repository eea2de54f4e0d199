(** * str() of the Python objects.

    Objects and memory are those of PyModel.v; members are read as in PyBaseModel.v.  Not modelled: exhausted memory.
    Py_BuildValue("s") and PyString_FromString both decode UTF-8. *)
From Verif Require Import Base Types JsonModel TextModel HeapModel HeapListModel PyModel PyAttrModel PyBaseModel.
Open Scope Z_scope.

(** ** printf conversions *)
(* %d of a uint32_t or a number computed as int *)
Definition int32 (z : Z) : Z := if z <? 2 ^ 31 then z else z - 2 ^ 32.
Definition signed (z : Z) : str := if z <? 0 then L "-" ++ dec (- z) else dec z.
Definition percent_d (z : Z) : str := signed (int32 z).
(* %016x *)
Definition hex16 (z : Z) : str := let s := hex z in repeat "0"%char (16 - length s) ++ s.
(* "%s" between two texts, if the pointer is not NULL *)
Definition opt_text (before : str) (s : option str) (after : str) : str := match s with Some x => before ++ x ++ after | None => [] end.

(** ** Frames *)
(* python/py_core_frame.c:147-174 sr_py_core_frame_str *)
Definition core_frame_str (f : core_frame) : str :=
  (if cf_address f =? 0 then [] else L "[0x" ++ hex16 (cf_address f) ++ L "] ")
  ++ opt_text [] (cf_function_name f) (L " ")
  ++ opt_text [] (cf_build_id f) (L "+0x" ++ hex (cf_build_id_offset f) ++ L " ")
  ++ opt_text (L "[") (cf_file_name f) (L "] ")
  ++ opt_text (L "fingerprint: ") (cf_fingerprint f) (L " (" ++ (if cf_fingerprint_hashed f then [] else L "not ") ++ L "hashed)").
(* python/py_gdb_frame.c:217-237 sr_py_gdb_frame_str *)
Definition gdb_frame_str (f : gdb_frame) : str :=
  L "Frame #" ++ dec (gf_number f) ++ L ": "
  ++ match gf_function_name f with
     | None => L "signal handler"
     | Some n => if starts_with (L "??") n then L "unknown function" else L "function " ++ n
     end
  ++ (if gf_address f =? ulong_max then [] else L " @ 0x" ++ hex16 (gf_address f))
  ++ opt_text (L " (") (gf_library_name f) (L ")").
(* python/py_java_frame.c:166-206 sr_py_java_frame_str; g_string_append of NULL prints a warning and adds nothing *)
Definition java_frame_str (f : java_frame) : str :=
  if vf_is_exception f then opt_text [] (vf_name f) [] ++ opt_text (L ": ") (vf_message f) []
  else
    [tab] ++ opt_text (L "at ") (vf_name f) [] ++ opt_text (L "(") (vf_file_name f) []
    ++ (if vf_file_line f =? 0 then [] else L ":" ++ percent_d (vf_file_line f))
    ++ (if vf_is_native f then L "(Native Method" else []) ++ L ")".
(* python/py_js_frame.c:159-192 sr_py_js_frame_str *)
Definition js_frame_str (f : js_frame) : str :=
  L "at " ++ opt_text [] (jf_function_name f) (L " (")
  ++ match jf_file_name f with Some n => n | None => L "<unknown>" end
  ++ L ":" ++ percent_d (jf_file_line f) ++ L ":" ++ percent_d (jf_line_column f)
  ++ match jf_function_name f with Some _ => L ")" | None => [] end.
(* python/py_koops_frame.c:170-218 sr_py_koops_frame_str *)
Definition nonzero (z : Z) (s : str) : str := if z =? 0 then [] else s.
Definition koops_frame_str (f : koops_frame) : str :=
  opt_text (L "[") (kf_special_stack f) (L "] ")
  ++ nonzero (kf_address f) (L "[0x" ++ hex16 (kf_address f) ++ L "] ")
  ++ (if kf_reliable f then [] else L "? ")
  ++ opt_text [] (kf_function_name f) []
  ++ nonzero (kf_function_offset f) (L "+0x" ++ hex (kf_function_offset f))
  ++ nonzero (kf_function_length f) (L "/0x" ++ hex (kf_function_length f))
  ++ opt_text (L " [") (kf_module_name f) (L "]")
  ++ match kf_from_function_name f with Some _ => L " from " | None => nonzero (kf_from_address f) (L " from ") end
  ++ nonzero (kf_from_address f) (L "[0x" ++ hex16 (kf_from_address f) ++ L "] ")
  ++ opt_text [] (kf_from_function_name f) []
  ++ nonzero (kf_from_function_offset f) (L "+0x" ++ hex (kf_from_function_offset f))
  ++ nonzero (kf_from_function_length f) (L "/0x" ++ hex (kf_from_function_length f))
  ++ opt_text (L " [") (kf_from_module_name f) (L "]").
(* python/py_python_frame.c:163-192 sr_py_python_frame_str *)
Definition python_frame_str (f : python_frame) : str :=
  match pf_file_name f with Some n => L "File " ++ [dquote] ++ bracket (pf_special_file f) n ++ [dquote] | None => [] end
  ++ (if pf_file_line f =? 0 then [] else L ", " ++ percent_d (pf_file_line f))
  ++ match pf_function_name f with Some n => L ", in " ++ bracket (pf_special_function f) n | None => [] end
  ++ opt_text (nl :: L "    ") (pf_line_contents f) [].
(* python/py_ruby_frame.c:163-209 sr_py_ruby_frame_str *)
Definition ruby_frame_str (f : ruby_frame) : str :=
  opt_text [] (rf_file_name f) []
  ++ (if rf_file_line f =? 0 then [] else L ":" ++ percent_d (rf_file_line f))
  ++ match rf_function_name f with
     | Some n =>
       L ":in `" ++ concat (repeat (L "rescue in ") (Z.to_nat (rf_rescue_level f)))
       ++ (if rf_block_level f =? 1 then L "block in "
           else if 1 <? rf_block_level f then L "block (" ++ percent_d (rf_block_level f) ++ L " levels) in " else [])
       ++ bracket (rf_special_function f) n ++ L "'"
     | None => []
     end.
Definition frame_str (f : frame) : str :=
  match f with
  | FCore f => core_frame_str f | FPython f => python_frame_str f | FKoops f => koops_frame_str f | FJava f => java_frame_str f
  | FGdb f => gdb_frame_str f | FRuby f => ruby_frame_str f | FJs f => js_frame_str f
  end.

(** ** Threads and stack traces *)
(* PyList_Size: of something that is no list it is -1, with an exception; NULL is read *)
Definition list_size (st : state) (p : option ref) : res (option nat) :=
  match p with
  | None => UB
  | Some l => do (_, b) <- obj st l; match b with PyList items => Ok (Some (length items)) | _ => Ok None end
  end.
(* %zd *)
Definition size_text (n : option nat) : str := match n with Some n => dec (Z.of_nat n) | None => L "-1" end.
(* python/py_core_thread.c:123-134 sr_py_core_thread_str, python/py_gdb_thread.c:169-181, python/py_java_thread.c:160-174,
   python/py_core_stacktrace.c:177-188, python/py_gdb_stacktrace.c:338-349, python/py_java_stacktrace.c:139-150,
   python/py_js_stacktrace.c:174-185, python/py_koops_stacktrace.c:216-227, python/py_python_stacktrace.c:159-170,
   python/py_ruby_stacktrace.c:154-165 *)
Definition title (h : heap) (k : kind) (c : addr) : res (option str) :=
  match k with
  | KCoreThread => Ok (Some (L "Thread"))
  | KGdbThread => do n <- num h c (L "number") TU32; Ok (Some (L "Thread #" ++ dec n))
  | KJavaThread => do n <- txt h c (L "name"); Ok (Some (L "Thread" ++ opt_text (L " ") n []))
  | KCoreStack => Ok (Some (L "Core stacktrace"))
  | KGdbStack => Ok (Some (L "Stacktrace"))
  | KJavaStack => Ok (Some (L "Java stacktrace"))
  | KJsStack => Ok (Some (L "JavaScript stacktrace"))
  | KKoopsStack => Ok (Some (L "Kerneloops"))
  | KPythonStack => Ok (Some (L "Python stacktrace"))
  | KRubyStack => Ok (Some (L "Ruby stacktrace"))
  | _ => Ok None
  end.
(* what the list contains *)
Definition contents (k : kind) : str := match thread_type k with Some _ => L " threads" | None => L " frames" end.
(** ** Packages, operating systems, libraries *)
(* python/py_rpm_package.c:157-193 sr_py_rpm_package_str *)
Definition rpm_str (name : option str) (epoch : Z) (version release architecture : option str) : str :=
  match name with
  | None => L "(unknown)"
  | Some name =>
    name ++
    match version with
    | None => []
    | Some version =>
      L "-" ++ (if epoch =? 0 then [] else dec epoch ++ L ":") ++ version ++
      match release with
      | None => []
      | Some release => L "-" ++ release ++ opt_text (L ".") architecture []
      end
    end
  end.
(* python/py_operating_system.c:138-160 sr_py_operating_system_str *)
Definition os_str (name version architecture cpe : option str) : str :=
  match name with Some n => n | None => L "(unknown)" end ++ opt_text (L " ") version [] ++ opt_text (L " (") architecture (L ")") ++ opt_text (L ", CPE: ") cpe [].
(* python/py_gdb_sharedlib.c:109-113 sr_py_gdb_sharedlib_str *)
Definition lib_str (soname : option str) : str := match soname with Some s => s | None => L "Unknown shared library" end.

(** ** str() *)
Definition py_str (st : state) (r : ref) : method (list Z) :=
  do (_, b) <- obj st r;
  match b with
  | PyStruct k c attrs =>
    let h := mem st in
    if frame_struct k then do f <- load_frame h c; Ok (st, py_string (frame_str f))
    else
      do t <- title h k c;
      match t with
      | Some t =>
        do n <- list_size st (hd None attrs);
        let s := t ++ L " with " ++ size_text n ++ contents k in
        Ok (st, match n with
                | Some _ => py_string s
                | None => match py_string s with Value x => ValueAnd x SystemError | a => a end
                end)
      | None =>
        match k with
        | KGdbLib => do s <- txt h c (L "soname"); Ok (st, py_string (lib_str s))
        | KRpm =>
          do n <- txt h c (L "name"); do e <- num h c (L "epoch") TU32; do v <- txt h c (L "version"); do rl <- txt h c (L "release");
          do a <- txt h c (L "architecture");
          Ok (st, py_string (rpm_str n e v rl a))
        | KOs =>
          do n <- txt h c (L "name"); do v <- txt h c (L "version"); do a <- txt h c (L "architecture"); do cpe <- txt h c (L "cpe");
          Ok (st, py_string (os_str n v a cpe))
        | _ => UB
        end
      end
  | _ => UB
  end.
