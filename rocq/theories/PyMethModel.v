(** * Methods that only some Python types have: python/py_koops_stacktrace.c, python/py_gdb_frame.c, python/py_gdb_thread.c,
    python/py_java_thread.c, the dup methods of frames and the crash attribute.

    Objects and memory are those of PyModel.v, structures are read as in PyBaseModel.v. *)
From Coq Require Import QArith.
From Verif Require Import Base Types UtilsModel NormTables CmpModel TextModel NormModel CrashModel FunsModel HeapModel HeapListModel PyModel PyAttrModel PyBaseModel.
Open Scope nat_scope.

(** ** Normalizing a kernel oops in memory *)
(* the members function_name and module_name of a frame *)
Definition koops_names (h : heap) (a : addr) : res (option addr * option addr) :=
  do c <- get h a;
  match c with
  | CObj KKoopsFrame _ (fn :: md :: _) _ _ _ _ => Ok (fn, md)
  | _ => UB
  end.
(* lib/koops_stacktrace.c:823-837: the dot is overwritten with the terminator *)
Fixpoint cut_names (fuel : nat) (h : heap) (p : option addr) : res heap :=
  match p with
  | None => Ok h
  | Some a =>
    match fuel with
    | O => UB
    | S fuel =>
      do (fn, _) <- koops_names h a;
      do h <- match fn with
              | None => Ok h
              | Some f =>
                do s <- get_str h f;
                match strchrnul s "." with
                | (_, []) => Ok h
                | (before, _) => set_cell h f (CStr before)
                end
              end;
      do n <- next_of h a;
      cut_names fuel h n
    end
  end.
(* lib/koops_stacktrace.c:857-878; the assertion of line 874 is [UB] when it fails *)
Definition opt_str (h : heap) (p : option addr) : res (option str) :=
  match p with None => Ok None | Some a => do s <- get_str h a; Ok (Some s) end.
Fixpoint remove_listed (fuel : nat) (h : heap) (s : addr) (p : option addr) : res heap :=
  match p with
  | None => Ok h
  | Some a =>
    match fuel with
    | O => UB
    | S fuel =>
      do n <- next_of h a;
      do (fn, md) <- koops_names h a;
      do name <- opt_str h fn;
      do in_blacklist <- bsearch name koops_blacklist;
      do h <- match md with
              | None => if in_blacklist
                        then do (h, success) <- thread_remove_frame h s a; if (success : bool) then Ok h else UB
                        else Ok h
              | Some _ => Ok h
              end;
      remove_listed fuel h s n
    end
  end.
(* lib/koops_stacktrace.c:820-879 sr_normalize_koops_stacktrace *)
Definition sr_normalize_koops_stacktrace (h : heap) (s : addr) : res heap :=
  do p <- thread_frames h s;
  do h <- cut_names (length h) h p;
  do p <- thread_frames h s;
  remove_listed (length h) h s p.

(** ** Kernel oopses *)
(* python/py_koops_stacktrace.c:245-267 sr_py_koops_stacktrace_normalize *)
Definition koops_normalize (st : state) (r : ref) : method unit :=
  do (st, ok) <- frames_prepare st r;
  if negb ok then Ok (st, Raise TypeError)
  else
    do (_, b) <- obj st r;
    match b with
    | PyStruct KKoopsStack c (frames :: _) =>
      do (h, tmp) <- sr_dup KKoopsStack (mem st) c false;
      do h <- sr_normalize_koops_stacktrace h tmp;
      do st <- match frames with None => UB | Some l => decref (with_mem st h) l end;
      do p <- thread_frames (mem st) tmp;
      do h <- set_frames (mem st) c p;
      do h <- set_frames h tmp None;
      do h <- sr_free KKoopsStack h tmp;
      do (st, l) <- frames_to_python (with_mem st h) KKoopsFrame c;
      do (m, b) <- obj st r;
      match b with
      | PyStruct k c attrs => Ok (set_obj st r (Some (m, PyStruct k c (replace_nth attrs 0 (Some l)))), Value tt)
      | _ => UB
      end
    | _ => UB
    end.
(* python/py_koops_stacktrace.c:106-122 sr_py_koops_stacktrace_get_modules.  Py_BuildValue gives NULL for a string that is
   not UTF-8, and PyList_Append of NULL sets SystemError; both results are ignored.  Simplification: the strings in the
   list are values here; each keeps a reference nobody owns. *)
Definition get_modules (st : state) (r : ref) : method (list (list Z)) :=
  do (_, c) <- struct_at st r;
  do ms <- load_modules (mem st) c;
  let items := map from_utf8 (match ms with None => [] | Some l => l end) in
  let result := concat (map (fun t => match t with Some t => [t] | None => [] end) items) in
  Ok (st, if forallb (fun t => match t with Some _ => true | None => false end) items then Value result else ValueAnd result SystemError).
(* python/py_koops_stacktrace.c:131-146 sr_py_koops_stacktrace_get_taint_flags; the flags and their names are sr_flags, the
   taint members of the structure are its numbers in that order (Types.v) *)
Fixpoint flag_dict (flags : list (ascii * str)) (members : list Z) : res (list (str * bool)) :=
  match flags, members with
  | [], _ => Ok []
  | (_, name) :: flags, m :: members => do d <- flag_dict flags members; Ok ((name, negb (m =? 0)%Z) :: d)
  | _ :: _, [] => UB
  end.
Definition get_taint_flags (st : state) (r : ref) : method (list (str * bool)) :=
  do (_, c) <- struct_at st r;
  do x <- get (mem st) c;
  match x with
  | CObj KKoopsStack scal _ _ _ _ _ => do d <- flag_dict taint_flags scal; Ok (st, Value d)
  | _ => UB
  end.
(* python/py_koops_stacktrace.c:124-129 sr_py_koops_stacktrace_set_modules and 148-153 sr_py_koops_stacktrace_set_taint_flags,
   python/py_base_stacktrace.c:481-486 sr_py_multi_stacktrace_set_crash *)
Definition set_not_implemented (st : state) (r v : ref) : method unit := Ok (st, Raise NotImplementedError).

(** ** The crash thread of a single-threaded stack trace *)
(* python/py_base_stacktrace.c:354-359 sr_py_single_stacktrace_get_crash *)
Definition single_get_crash (st : state) (r : ref) : method ref := do st <- incref st r; Ok (st, Value r).
(* python/py_base_stacktrace.c:361-367 sr_py_single_stacktrace_set_crash *)
Definition single_set_crash (st : state) (r v : ref) : method unit := Ok (st, Raise AttributeError).

(** ** Frames *)
(* The dup methods: python/py_core_frame.c:177-190, python/py_gdb_frame.c:240-253, python/py_java_frame.c:209-222,
   python/py_js_frame.c:195-208, python/py_koops_frame.c:221-234, python/py_python_frame.c:195-208,
   python/py_ruby_frame.c:212-225 *)
Definition frame_dup (st : state) (r : ref) : method ref :=
  do (k, c) <- struct_at st r;
  do (h, d) <- sr_dup k (mem st) c false;
  let '(st, o) := new_obj (with_mem st h) (PyStruct k d []) in
  Ok (st, Value o).
(* python/py_gdb_frame.c:255-264 sr_py_gdb_frame_calls_func and 266-275 sr_py_gdb_frame_calls_func_in_file: the file
   names are the arguments between the function name and NULL.  Simplification: the arguments are already C strings. *)
Definition calls_func_with (files : list str) (st : state) (r : ref) (name : str) : method Z :=
  do (_, c) <- struct_at st r;
  do f <- load_frame (mem st) c;
  match f with
  | FGdb f => Ok (st, Value (if sr_gdb_frame_calls_func f name files then 1%Z else 0%Z))
  | _ => UB
  end.
Definition calls_func := calls_func_with [].
Definition calls_func_in_file (st : state) (r : ref) (name file : str) : method Z := calls_func_with [file] st r name.

(** ** Threads *)
(* python/py_gdb_thread.c:209-219 sr_py_gdb_thread_quality_counts, python/py_java_thread.c:200-210
   sr_py_java_thread_quality_counts *)
Definition thread_quality_counts (st : state) (r : ref) : method (Z * Z) :=
  do (st, ok) <- frames_prepare st r;
  if negb ok then Ok (st, Raise TypeError)
  else
    do (_, c) <- struct_at st r;
    do t <- load_thread (mem st) c;
    match t with
    | TGdb t => Ok (st, Value (sr_gdb_thread_quality_counts t (0, 0)%Z))
    | TJava t => Ok (st, Value (sr_java_thread_quality_counts t (0, 0)%Z))
    | _ => UB
    end.
(* python/py_gdb_thread.c:221-229 sr_py_gdb_thread_quality, python/py_java_thread.c:212-220 sr_py_java_thread_quality *)
Definition thread_quality (st : state) (r : ref) : method Q :=
  do (st, ok) <- frames_prepare st r;
  if negb ok then Ok (st, Raise TypeError)
  else
    do (_, c) <- struct_at st r;
    do t <- load_thread (mem st) c;
    match t with
    | TGdb t => Ok (st, Value (sr_gdb_thread_quality t))
    | TJava t => Ok (st, Value (sr_java_thread_quality t))
    | _ => UB
    end.
(* lib/java_thread.c:345-363 sr_java_thread_format_funs *)
Definition sr_java_thread_format_funs (t : java_thread) : str :=
  concat (map (fun f => match vf_name f with Some n => n ++ [nl] | None => [] end) (vt_frames t)).
(* python/py_gdb_thread.c:231-235 sr_py_gdb_thread_format_funs, python/py_java_thread.c:222-226
   sr_py_java_thread_format_funs: the frames are not linked first, and the text is never freed *)
Definition thread_format_funs (st : state) (r : ref) : method (list Z) :=
  do (_, c) <- struct_at st r;
  do t <- load_thread (mem st) c;
  match t with
  | TGdb t => Ok (st, py_string (sr_gdb_thread_format_funs t))
  | TJava t => Ok (st, py_string (sr_java_thread_format_funs t))
  | _ => UB
  end.
