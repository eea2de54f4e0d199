(** * The methods of a gdb stack trace in Python that rebuild its list of threads: the second half of
    python/py_gdb_stacktrace.c.

    Objects and memory are those of PyModel.v; [rebuild_threads] is there. *)
From Verif Require Import Base Types NormModel TextModel HeapModel HeapListModel PyModel PyAttrModel PyBaseModel.
Open Scope nat_scope.

(** ** Library names, in memory *)
(* lib/gdb_sharedlib.c:103-121 sr_gdb_sharedlib_find_address *)
Fixpoint lib_at (fuel : nat) (h : heap) (p : option addr) (address : Z) : res (option addr) :=
  match p with
  | None => Ok None
  | Some a =>
    match fuel with
    | O => UB
    | S fuel =>
      do from <- num h a (L "from") TU64;
      do to <- num h a (L "to") TU64;
      if ((from <=? address) && (address <=? to))%Z then Ok (Some a)
      else do n <- next_of h a; lib_at fuel h n address
    end
  end.
Definition find_lib_at (h : heap) (libs : option addr) (address : Z) : res (option addr) :=
  if (address =? 2 ^ 64 - 1)%Z then Ok None else lib_at (length h) h libs address.
(* lib/gdb_thread.c:530-550: the body of the loop, for the frame at [a]; the library name is the fourth string of a
   frame.  Simplification: the three pointers into the soname are the functions of NormModel.v *)
Definition set_libname (h : heap) (libs : option addr) (a : addr) : res heap :=
  do address <- num h a (L "address") TU64;
  do lib <- find_lib_at h libs address;
  match lib with
  | None => Ok h
  | Some l =>
    do soname <- txt h l (L "soname");
    match soname with
    | None => UB
    | Some s =>
      do c <- get h a;
      match c with
      | CObj KGdbFrame scal [fn; ft; sf; ln] ks arr raw n =>
        do h <- g_free_opt h ln;
        let '(h, x) := alloc h (CStr (upto_so (after_last_slash s))) in
        set_cell h a (CObj KGdbFrame scal [fn; ft; sf; Some x] ks arr raw n)
      | _ => UB
      end
    end
  end.
(* lib/gdb_thread.c:524-553 sr_gdb_thread_set_libnames *)
Fixpoint frames_libnames (fuel : nat) (h : heap) (libs p : option addr) : res heap :=
  match p with
  | None => Ok h
  | Some a =>
    match fuel with
    | O => UB
    | S fuel => do h <- set_libname h libs a; do n <- next_of h a; frames_libnames fuel h libs n
    end
  end.
(* lib/gdb_stacktrace.c:563-572 sr_gdb_stacktrace_set_libnames *)
Fixpoint threads_libnames (fuel : nat) (h : heap) (libs p : option addr) : res heap :=
  match p with
  | None => Ok h
  | Some a =>
    match fuel with
    | O => UB
    | S fuel =>
      do f <- thread_frames h a;
      do h <- frames_libnames (length h) h libs f;
      do n <- next_of h a;
      threads_libnames fuel h libs n
    end
  end.
Definition stack_libnames (h : heap) (c : addr) : res heap :=
  do x <- get h c;
  match x with
  | CObj KGdbStack _ _ [_; threads; libs] _ _ _ => threads_libnames (length h) h libs threads
  | _ => UB
  end.

(** ** Methods *)
(* python/py_gdb_stacktrace.c:505-518 sr_py_gdb_stacktrace_set_libnames; [rebuild_threads] does not report an error *)
Definition py_set_libnames (st : state) (r : ref) : method unit :=
  do (st, ok) <- gdb_prepare st r;
  if negb ok then Ok (st, Raise TypeError)
  else
    do c <- wrapped st r;
    do h <- stack_libnames (mem st) c;
    do (st, _) <- rebuild_threads (with_mem st h) r;
    Ok (st, Value tt).
(* python/py_gdb_stacktrace.c:548-574 sr_py_gdb_stacktrace_to_short_text *)
Definition gdb_to_short_text (st : state) (r : ref) (max_frames : Z) : method (list Z) :=
  do (st, ok) <- gdb_prepare st r;
  if negb ok then Ok (st, Raise TypeError)
  else if negb (is_c_int max_frames) then Ok (st, Raise OverflowError)
  else
    do c <- wrapped st r;
    do x <- short_text (mem st) c max_frames;
    match x with
    | None => Ok (st, Raise LookupError)
    | Some s => do (st, _) <- rebuild_threads st r; Ok (st, py_string s)
    end.
(* python/py_gdb_stacktrace.c:520-546 sr_py_gdb_stacktrace_normalize; [normalize] is sr_normalize_gdb_stacktrace working
   in memory on the copy *)
Definition stack_lists (h : heap) (c : addr) : res (list Z * option addr * option addr) :=
  do x <- get h c;
  match x with CObj KGdbStack scal _ [crash; threads; _] _ _ _ => Ok (scal, crash, threads) | _ => UB end.
Definition set_stack_lists (h : heap) (c : addr) (scal : list Z) (crash threads : option addr) : res heap :=
  do x <- get h c;
  match x with
  | CObj KGdbStack _ strs [_; _; libs] arr raw n => set_cell h c (CObj KGdbStack scal strs [crash; threads; libs] arr raw n)
  | _ => UB
  end.
Definition gdb_normalize (normalize : heap -> addr -> res heap) (st : state) (r : ref) : method unit :=
  do (st, ok) <- gdb_prepare st r;
  if negb ok then Ok (st, Raise TypeError)
  else
    do (_, b) <- obj st r;
    match b with
    | PyStruct KGdbStack c (threads :: _) =>
      do (h, tmp) <- sr_dup KGdbStack (mem st) c false;
      do h <- normalize h tmp;
      do st <- match threads with None => UB | Some l => decref (with_mem st h) l end;
      do (scal, crash, ts) <- stack_lists (mem st) tmp;
      do h <- set_stack_lists (mem st) c scal crash ts;
      do h <- set_stack_lists h tmp scal None None;
      do h <- sr_free KGdbStack h tmp;
      do (st, l) <- threads_to_python (with_mem st h) KGdbStack c;
      do (m, b) <- obj st r;
      match b with
      | PyStruct k c attrs => Ok (set_obj st r (Some (m, PyStruct k c (replace_nth attrs 0 (Some l)))), Value tt)
      | _ => UB
      end
    | _ => UB
    end.
