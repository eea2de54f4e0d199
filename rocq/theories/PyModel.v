(** * Python objects and the C structures they wrap.

    The C memory is that of HeapModel.v.  Python objects live beside it: an object is a reference count and a body, a
    reference is an index, a destroyed object stays in place as [None], and touching one is [UB].  A satyr object wraps
    one C structure (the member "frame", "thread", "stacktrace", "sharedlib", ... of its Python structure) and owns up to three other
    Python objects (its attributes).  What the interpreter itself does - counting references, destroying an object whose
    count reaches zero, lists - follows CPython's documentation.  Memory is never exhausted. *)
From Verif Require Import Base HeapModel HeapListModel.
Open Scope nat_scope.

Definition ref := nat.
(* The attributes of a struct: frames of a thread or single-threaded stack trace (python/py_base_thread.h:37-43);
   threads of a core or java stack trace (python/py_base_stacktrace.h:41-48); threads, libs and crashframe of a gdb
   stack trace (python/py_gdb_stacktrace.h:43-52); packages, operating_system and stacktrace of a report
   (python/py_report.h:37-44).  NULL when deleted.  [PyOther]: any other object. *)
Inductive body :=
| PyOther
| PyList (items : list ref)
| PyStruct (k : kind) (c : addr) (attrs : list (option ref)).
Definition objects := list (option (nat * body)).
Record state := St { objs : objects; mem : heap }.
Definition with_mem (st : state) (h : heap) : state := St (objs st) h.

Definition obj (st : state) (r : ref) : res (nat * body) :=
  match nth_error (objs st) r with
  | Some (Some o) => Ok o
  | _ => UB
  end.
Fixpoint put_obj (os : objects) (r : ref) (o : option (nat * body)) : objects :=
  match os, r with
  | [], _ => []
  | _ :: os, O => o :: os
  | x :: os, S r => x :: put_obj os r o
  end.
Definition set_obj (st : state) (r : ref) (o : option (nat * body)) : state := St (put_obj (objs st) r o) (mem st).
(* PyObject_New, PyList_New: one reference *)
Definition new_obj (st : state) (b : body) : state * ref := (St (objs st ++ [Some (1, b)]) (mem st), length (objs st)).
(* Py_INCREF *)
Definition incref (st : state) (r : ref) : res state :=
  do (n, b) <- obj st r;
  Ok (set_obj st r (Some (S n, b))).
(* "this->threads = NULL" and the like, for every member listed *)
Fixpoint clear_kids (which : list bool) (kids : list (option addr)) : list (option addr) :=
  match which, kids with
  | w :: which, p :: kids => (if w then None else p) :: clear_kids which kids
  | _, _ => kids
  end.
Definition clear (h : heap) (c : addr) (which : list bool) : res heap :=
  do x <- get h c;
  match x with
  | CObj k scal strs kids arr raw next => set_cell h c (CObj k scal strs (clear_kids which kids) arr raw next)
  | _ => UB
  end.
(* The C function each destructor calls last: sr_core_frame_free and so on; sr_rpm_package_free is told not to follow
   the list (python/py_rpm_package.c:147-154) *)
Definition struct_free (k : kind) (h : heap) (c : addr) : res heap :=
  match k with
  | KRpm => sr_rpm_package_free h (Some c) false
  | KOs => operating_system_free h (Some c)
  | KReport => sr_report_free h c
  | _ => sr_free k h c
  end.
(* Which attributes a destructor releases, and which members of the C structure it then clears.
   frames: python/py_core_frame.c:137-144 and the same for the other types; shared libraries:
   python/py_gdb_sharedlib.c:99-106; packages: python/py_rpm_package.c:147-154; operating systems:
   python/py_operating_system.c:128-135;
   threads: python/py_core_thread.c:111-121, python/py_gdb_thread.c:157-167, python/py_java_thread.c:148-158;
   single-threaded stack traces: python/py_python_stacktrace.c:146-156, python/py_koops_stacktrace.c:203-213,
   python/py_ruby_stacktrace.c:141-151, python/py_js_stacktrace.c:161-171;
   core and java stack traces: python/py_core_stacktrace.c:164-174, python/py_java_stacktrace.c:126-136;
   gdb stack trace: python/py_gdb_stacktrace.c:323-335 (crashframe is not released);
   report: python/py_report.c:408-428 (the operating system, the packages and the stack trace) *)
Definition released (k : kind) : nat * list bool :=
  match k with
  | KCoreThread | KJavaThread | KGdbThread | KPythonStack | KKoopsStack | KRubyStack | KJsStack | KCoreStack | KJavaStack => (1, [true])
  | KGdbStack => (2, [false; true; true])
  | KReport => (3, [true; true; true])
  | _ => (0, [])
  end.
(* Py_DECREF of each object in turn; a NULL is [UB] *)
Fixpoint each_ref (f : state -> ref -> res state) (st : state) (rs : list (option ref)) : res state :=
  match rs with
  | [] => Ok st
  | None :: _ => UB
  | Some r :: rs => do st <- f st r; each_ref f st rs
  end.
(* Py_DECREF; the destructor runs when no reference is left (a list releases its items from the last to the first) *)
Fixpoint decref_in (fuel : nat) (st : state) (r : ref) : res state :=
  match fuel with
  | O => UB
  | S fuel =>
    do (n, b) <- obj st r;
    match n with
    | O => UB
    | S (S n) => Ok (set_obj st r (Some (S n, b)))
    | S O =>
      let st := set_obj st r (Some (O, b)) in
      do st <- match b with
               | PyOther => Ok st
               | PyList items => each_ref (decref_in fuel) st (map Some (rev items))
               | PyStruct k c attrs =>
                 let '(n, which) := released k in
                 do st <- each_ref (decref_in fuel) st (firstn n attrs);
                 do h <- (match which with [] => Ok (mem st) | _ => clear (mem st) c which end);
                 do h <- struct_free k h c;
                 Ok (with_mem st h)
               end;
      Ok (set_obj st r None)
    end
  end.
(* each level of destruction concerns another object *)
Definition decref (st : state) (r : ref) : res state := decref_in (S (length (objs st))) st r.
(* Py_XDECREF *)
Definition decref_opt (st : state) (p : option ref) : res state :=
  match p with None => Ok st | Some r => decref st r end.

(* PyList_Size and PyList_GetItem: something that is no list has size -1, so the loops below do not run *)
Definition items_of (st : state) (p : option ref) : res (list ref) :=
  match p with
  | None => UB
  | Some l => do (_, b) <- obj st l; match b with PyList items => Ok items | _ => Ok [] end
  end.
(* PyList_Append *)
Definition list_add (st : state) (l item : ref) : res state :=
  do st <- incref st item;
  do (n, b) <- obj st l;
  match b with
  | PyList items => Ok (set_obj st l (Some (n, PyList (items ++ [item]))))
  | _ => UB
  end.
(* Setting an attribute declared T_OBJECT_EX: the new value gains a reference, the old one loses its *)
Fixpoint replace_nth {A} (l : list A) (i : nat) (x : A) : list A :=
  match l, i with
  | [], _ => []
  | _ :: l, O => x :: l
  | y :: l, S i => y :: replace_nth l i x
  end.
Definition set_attr (st : state) (r : ref) (i : nat) (v : ref) : res state :=
  do st <- incref st v;
  do (n, b) <- obj st r;
  match b with
  | PyStruct k c attrs =>
    let st := set_obj st r (Some (n, PyStruct k c (replace_nth attrs i (Some v)))) in
    decref_opt st (nth i attrs None)
  | _ => UB
  end.

(** ** From Python lists to linked lists *)
(* PyObject_TypeCheck: the satyr types cannot be subclassed, so it is equality of types *)
Definition has_type (st : state) (r : ref) (k : kind) : res bool :=
  do (_, b) <- obj st r;
  match b with PyStruct k' _ _ => Ok (kind_beq k k') | _ => Ok false end.
Definition wrapped (st : state) (r : ref) : res addr :=
  do (_, b) <- obj st r;
  match b with PyStruct _ c _ => Ok c | _ => UB end.
(* The loop of the four functions below: [k] the type the items must have; [each] what is done with an item before it
   is linked; [first] stores the first structure; [own_error] whether the error path releases the item it has just
   taken (otherwise it releases "current", which is the previous item).  "i == 0" is [prev = None].
   Simplification: the items are read from the Python list once; nothing in the loop changes the list. *)
Fixpoint link_loop (k : kind) (each : state -> ref -> res (state * bool)) (first : heap -> addr -> res heap) (own_error : bool)
    (items : list ref) (prev : option ref) (st : state) : res (state * bool) :=
  match items with
  | [] =>
    match prev with
    | None => Ok (st, true)
    | Some r => do c <- wrapped st r; do h <- set_next (mem st) c None; do st <- decref (with_mem st h) r; Ok (st, true)
    end
  | item :: items =>
    do st <- incref st item;
    do ok <- has_type st item k;
    if ok then
      do (st, ok) <- each st item;
      if ok then
        do c <- wrapped st item;
        do h <- match prev with
                | None => first (mem st) c
                | Some q => do d <- wrapped st q; set_next (mem st) d (Some c)
                end;
        do st <- decref_opt (with_mem st h) prev;
        link_loop k each first own_error items (Some item) st
      else Ok (st, false)
    else
      do st <- decref_opt st (if own_error then Some item else prev);
      do st <- decref_opt st prev;
      Ok (st, false)
  end.
Definition nothing (st : state) (r : ref) : res (state * bool) := Ok (st, true).
(* python/py_base_thread.c:115-156 frames_prepare_linked_list; true: 0, false: -1 with an exception set *)
Definition frames_prepare (st : state) (r : ref) : res (state * bool) :=
  do (_, b) <- obj st r;
  match b with
  | PyStruct k c (frames :: _) =>
    match frame_kind k with
    | Some fk => do items <- items_of st frames; link_loop fk nothing (fun h a => set_frames h c (Some a)) true items None st
    | None => UB
    end
  | _ => UB
  end.
(* sr_stacktrace_set_threads: the threads are the first owned list of a core or java stack trace, the second of a gdb
   stack trace; the thread type is set by the constructors, e.g. python/py_core_stacktrace.c:123 *)
Definition thread_type (k : kind) : option kind :=
  match k with KCoreStack => Some KCoreThread | KJavaStack => Some KJavaThread | KGdbStack => Some KGdbThread | _ => None end.
Definition set_threads (k : kind) (h : heap) (s : addr) (p : option addr) : res heap :=
  match k with KGdbStack => set_gdb_threads h s p | _ => set_frames h s p end.
Definition stack_threads (k : kind) (h : heap) (s : addr) : res (option addr) :=
  match k with KGdbStack => gdb_threads h s | _ => thread_frames h s end.
(* python/py_base_stacktrace.c:181-226 threads_prepare_linked_list *)
Definition threads_prepare (st : state) (r : ref) : res (state * bool) :=
  do (_, b) <- obj st r;
  match b with
  | PyStruct k c (threads :: _) =>
    match thread_type k with
    | Some tk => do items <- items_of st threads; link_loop tk frames_prepare (fun h a => set_threads k h c (Some a)) false items None st
    | None => UB
    end
  | _ => UB
  end.
Definition set_libs (h : heap) (s : addr) (p : option addr) : res heap :=
  do c <- get h s;
  match c with
  | CObj KGdbStack scal strs [crash; threads; _] arr raw next => set_cell h s (CObj KGdbStack scal strs [crash; threads; p] arr raw next)
  | _ => UB
  end.
(* python/py_gdb_stacktrace.c:141-184 gdb_prepare_linked_lists *)
Definition gdb_prepare (st : state) (r : ref) : res (state * bool) :=
  do (st, ok) <- threads_prepare st r;
  if ok then
    do (_, b) <- obj st r;
    match b with
    | PyStruct KGdbStack c (_ :: libs :: _) =>
      do items <- items_of st libs; link_loop KGdbLib nothing (fun h a => set_libs h c (Some a)) false items None st
    | _ => UB
    end
  else Ok (st, false).
Definition set_packages (h : heap) (r : addr) (p : option addr) : res heap :=
  do c <- get h r;
  match c with
  | CObj KReport scal strs [os; _; stacktrace; auth] arr raw next =>
    set_cell h r (CObj KReport scal strs [os; p; stacktrace; auth] arr raw next)
  | _ => UB
  end.
(* python/py_report.c:169-215 rpms_prepare_linked_list *)
Definition rpms_prepare (st : state) (r : ref) : res (state * bool) :=
  do (_, b) <- obj st r;
  match b with
  | PyStruct KReport c (packages :: _) =>
    match packages with
    | None => UB
    | Some l =>
      do (_, b) <- obj st l;
      match b with
      | PyList items => link_loop KRpm nothing (fun h a => set_packages h c (Some a)) true items None st
      | _ => Ok (st, false)
      end
    end
  | _ => UB
  end.

(** ** From linked lists to Python lists *)
(* python/py_base_thread.c:158-186 frames_to_python_list; python/py_gdb_stacktrace.c:216-238
   sharedlib_linked_list_to_python_list and python/py_report.c:145-167 rpms_to_python_list are the same code.  The new
   object keeps the reference PyObject_New gave it: PyList_Append adds another. *)
Fixpoint wrap_loop (fuel : nat) (k : kind) (st : state) (l : ref) (p : option addr) : res state :=
  match p with
  | None => Ok st
  | Some a =>
    match fuel with
    | O => UB
    | S fuel =>
      let '(st, item) := new_obj st (PyStruct k a []) in
      do st <- list_add st l item;
      do n <- next_of (mem st) a;
      wrap_loop fuel k st l n
    end
  end.
Definition wrap_list (k : kind) (st : state) (p : option addr) : res (state * ref) :=
  let '(st, l) := new_obj st (PyList []) in
  do st <- wrap_loop (length (mem st)) k st l p;
  Ok (st, l).
Definition frames_to_python (st : state) (fk : kind) (t : addr) : res (state * ref) :=
  do p <- thread_frames (mem st) t; wrap_list fk st p.
(* python/py_base_stacktrace.c:228-257 threads_to_python_list; python/py_gdb_stacktrace.c:186-214
   thread_linked_list_to_python_list is the same for gdb.  Simplification: the object that wraps a thread is created
   after its list of frames, not before. *)
Fixpoint wrap_threads (fuel : nat) (tk fk : kind) (st : state) (l : ref) (p : option addr) : res state :=
  match p with
  | None => Ok st
  | Some a =>
    match fuel with
    | O => UB
    | S fuel =>
      do (st, frames) <- frames_to_python st fk a;
      let '(st, item) := new_obj st (PyStruct tk a [Some frames]) in
      do st <- list_add st l item;
      do n <- next_of (mem st) a;
      wrap_threads fuel tk fk st l n
    end
  end.
Definition threads_to_python (st : state) (k : kind) (s : addr) : res (state * ref) :=
  match thread_type k with
  | Some tk =>
    match frame_kind tk with
    | Some fk =>
      do p <- stack_threads k (mem st) s;
      let '(st, l) := new_obj st (PyList []) in
      do st <- wrap_threads (length (mem st)) tk fk st l p;
      Ok (st, l)
    | None => UB
    end
  | None => UB
  end.

(** ** Methods *)
(* The dup method of threads: python/py_core_thread.c:136-158, python/py_gdb_thread.c:183-207,
   python/py_java_thread.c:176-198; of single-threaded stack traces, with the function that wraps the copy:
   python/py_python_stacktrace.c:98-115 and 172-185, python/py_koops_stacktrace.c:155-172 and 229-242,
   python/py_ruby_stacktrace.c:93-110 and 167-180, python/py_js_stacktrace.c:113-130 and 187-200.
   None: an exception *)
Definition thread_dup (st : state) (r : ref) : res (state * option ref) :=
  do (st, ok) <- frames_prepare st r;
  if ok then
    do (_, b) <- obj st r;
    match b with
    | PyStruct k c _ =>
      match frame_kind k with
      | Some fk =>
        do (h, d) <- sr_dup k (mem st) c false;
        do (st, l) <- frames_to_python (with_mem st h) fk d;
        let '(st, o) := new_obj st (PyStruct k d [Some l]) in
        Ok (st, Some o)
      | None => UB
      end
    | _ => UB
    end
  else Ok (st, None).
(* The dup method of core and java stack traces: python/py_core_stacktrace.c:115-133 and 190-203,
   python/py_java_stacktrace.c:77-95 and 152-165 *)
Definition stack_dup (st : state) (r : ref) : res (state * option ref) :=
  do (st, ok) <- threads_prepare st r;
  if ok then
    do (_, b) <- obj st r;
    match b with
    | PyStruct k c _ =>
      do (h, d) <- sr_dup k (mem st) c false;
      do (st, l) <- threads_to_python (with_mem st h) k d;
      let '(st, o) := new_obj st (PyStruct k d [Some l]) in
      Ok (st, Some o)
    | _ => UB
    end
  else Ok (st, None).
(* python/py_base_stacktrace.c:369-413 sr_py_multi_stacktrace_get_crash; [find] is sr_stacktrace_find_crash_thread.
   None: an exception; Some None: the value None *)
Fixpoint find_item (st : state) (tk : kind) (items : list ref) (crash : addr) : res (state * option (option ref)) :=
  match items with
  | [] => Ok (st, Some None)
  | item :: items =>
    do ok <- has_type st item tk;
    if ok then
      do c <- wrapped st item;
      if Nat.eqb c crash then do st <- incref st item; Ok (st, Some (Some item)) else find_item st tk items crash
    else Ok (st, None)
  end.
Definition get_crash (find : heap -> addr -> res (option addr)) (st : state) (r : ref) : res (state * option (option ref)) :=
  do (st, ok) <- threads_prepare st r;
  if ok then
    do (_, b) <- obj st r;
    match b with
    | PyStruct k c (threads :: _) =>
      match thread_type k with
      | Some tk =>
        do crash <- find (mem st) c;
        match crash with
        | None => Ok (st, Some None)
        | Some a =>
          match threads with
          | None => UB
          | Some l => do (_, b) <- obj st l; match b with PyList items => find_item st tk items a | _ => Ok (st, None) end
          end
        end
      | None => UB
      end
    | _ => UB
    end
  else Ok (st, None).
(* python/py_gdb_stacktrace.c:245-259 stacktrace_rebuild_thread_python_list *)
Definition rebuild_threads (st : state) (r : ref) : res (state * bool) :=
  do (_, b) <- obj st r;
  match b with
  | PyStruct KGdbStack c (threads :: _) =>
    do p <- gdb_threads (mem st) c;
    match p with
    | None => UB
    | Some t =>
      do (h, n) <- sr_dup KGdbThread (mem st) t true;
      do st <- match threads with None => UB | Some l => decref (with_mem st h) l end;
      do h <- set_gdb_threads (mem st) c (Some n);
      do (st, l) <- threads_to_python (with_mem st h) KGdbStack c;
      do (m, b) <- obj st r;
      match b with
      | PyStruct k c attrs => Ok (set_obj st r (Some (m, PyStruct k c (replace_nth attrs 0 (Some l)))), true)
      | _ => UB
      end
    end
  | _ => UB
  end.
(* python/py_gdb_stacktrace.c:429-446 sr_py_gdb_stacktrace_limit_frame_depth.  Simplification: the argument is an int. *)
Definition py_limit_frame_depth (st : state) (r : ref) (depth : Z) : res (state * bool) :=
  do (st, ok) <- gdb_prepare st r;
  if ok then
    do c <- wrapped st r;
    do h <- limit_frame_depth (mem st) c depth;
    rebuild_threads (with_mem st h) r
  else Ok (st, false).
(* python/py_gdb_stacktrace.c:392-427 sr_py_gdb_stacktrace_find_crash_frame; [crash] is
   sr_gdb_stacktrace_get_crash_frame, which returns a new frame (lib/gdb_stacktrace.c:413-432).  The attribute
   crashframe is the third; it borrows the reference that is returned. *)
Definition py_find_crash_frame (crash : heap -> addr -> res (heap * option addr)) (st : state) (r : ref) : res (state * option ref) :=
  do (st, ok) <- gdb_prepare st r;
  if ok then
    do c <- wrapped st r;
    do (h, f) <- crash (mem st) c;
    match f with
    | None => Ok (with_mem st h, None)
    | Some f =>
      let '(st, result) := new_obj (with_mem st h) (PyStruct KGdbFrame f []) in
      do (n, b) <- obj st r;
      match b with
      | PyStruct k c attrs =>
        let st := set_obj st r (Some (n, PyStruct k c (replace_nth attrs 2 (Some result)))) in
        do (st, _) <- rebuild_threads st r;
        Ok (st, Some result)
      | _ => UB
      end
    end
  else Ok (st, None).
(* python/py_gdb_stacktrace.c:352-390 sr_py_gdb_stacktrace_dup; a crash frame is copied by the function for threads
   (line 382).  Simplification: a crashframe that is no frame is kept instead of becoming None *)
Definition gdb_dup (st : state) (r : ref) : res (state * option ref) :=
  do (st, ok) <- gdb_prepare st r;
  if ok then
    do (_, b) <- obj st r;
    match b with
    | PyStruct KGdbStack c [_; _; crashframe] =>
      do (h, d) <- sr_dup KGdbStack (mem st) c false;
      do (st, threads) <- threads_to_python (with_mem st h) KGdbStack d;
      do x <- get (mem st) d;
      do (st, libs) <- match x with
                       | CObj KGdbStack _ _ [_; _; p] _ _ _ => wrap_list KGdbLib st p
                       | _ => UB
                       end;
      do (st, crash) <- match crashframe with
                        | None => UB
                        | Some f =>
                          do ok <- has_type st f KGdbFrame;
                          if ok then thread_dup st f
                          else Ok (st, Some f)
                        end;
      match crash with
      | None => Ok (st, None)
      | Some _ => let '(st, o) := new_obj st (PyStruct KGdbStack d [Some threads; Some libs; crash]) in Ok (st, Some o)
      end
    | _ => UB
    end
  else Ok (st, None).
(* python/py_metrics.c:189-220 prepare_thread_array; None: an exception.  Any satyr thread type passes the type check of the first
   item (python/py_metrics.c:198, BaseThread); [thread_kind] lists them *)
Definition thread_kind (k : kind) : bool := match frame_kind k with Some _ => true | None => false end.
Fixpoint thread_array (items : list ref) (type : option kind) (st : state) : res (state * option (list addr)) :=
  match items with
  | [] => Ok (st, Some [])
  | item :: items =>
    do (_, b) <- obj st item;
    match b with
    | PyStruct k c _ =>
      if thread_kind k then
        if match type with None => true | Some t => kind_beq t k end then
          do (st, ok) <- frames_prepare st item;
          if ok then
            do (st, r) <- thread_array items (Some k) st;
            Ok (st, match r with None => None | Some cs => Some (c :: cs) end)
          else Ok (st, None)
        else Ok (st, None)
      else Ok (st, None)
    | _ => Ok (st, None)
    end
  end.
