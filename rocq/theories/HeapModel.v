(** * Structures in memory: copying, freeing and editing linked lists of frames.

    The other models treat a thread as a list of frames.  Here the pointers are explicit, so that
    sharing, dangling pointers and double frees can be expressed: memory is a list of cells, a
    pointer is an index into it, a freed cell stays in place as [CFree], and touching a freed or
    missing cell is [UB].

    A structure is one cell: its scalar members (copied as they are), its owned strings, its owned
    sub-lists, at most one owned string array, its borrowed pointers, and [next].  Which members
    each function of the library copies and frees is given per type by the tables below. *)
From Verif Require Import Base.

Definition addr := nat.
(* the structure types: frames, threads, stacktraces of the seven problem types, shared libraries *)
Inductive kind :=
| KCoreFrame | KPythonFrame | KKoopsFrame | KJavaFrame | KGdbFrame | KRubyFrame | KJsFrame
| KCoreThread | KJavaThread | KGdbThread | KGdbLib
| KCoreStack | KPythonStack | KKoopsStack | KJavaStack | KGdbStack | KRubyStack | KJsStack
| KRpm | KConsistency | KOs | KAuth | KReport.
Scheme Equality for kind.

Inductive cell :=
| CFree
| CStr (s : str)
| CArr (items : list addr)
| CObj (k : kind) (scal : list Z) (strs kids : list (option addr)) (arr : option addr)
       (raw : list (option addr)) (next : option addr).
Definition heap := list cell.

Definition get (h : heap) (a : addr) : res cell :=
  match nth_error h a with
  | None | Some CFree => UB
  | Some c => Ok c
  end.
Fixpoint put (h : heap) (a : addr) (c : cell) : heap :=
  match h, a with
  | [], _ => []
  | _ :: r, O => c :: r
  | x :: r, S b => x :: put r b c
  end.
Definition alloc (h : heap) (c : cell) : heap * addr := (h ++ [c], length h).
(* writing through a pointer: the cell must be live *)
Definition set_cell (h : heap) (a : addr) (c : cell) : res heap := do _ <- get h a; Ok (put h a c).
(* g_free of a non-NULL pointer *)
Definition g_free (h : heap) (a : addr) : res heap := set_cell h a CFree.
Definition g_free_opt (h : heap) (p : option addr) : res heap :=
  match p with None => Ok h | Some a => g_free h a end.
Definition get_str (h : heap) (a : addr) : res str :=
  do c <- get h a; match c with CStr s => Ok s | _ => UB end.
(* g_strdup *)
Definition g_strdup (h : heap) (p : option addr) : res (heap * option addr) :=
  match p with
  | None => Ok (h, None)
  | Some a => do s <- get_str h a; let '(h, b) := alloc h (CStr s) in Ok (h, Some b)
  end.

(** ** Per-type tables *)
(* The owned strings: (copied by the dup function, freed by the free function).
   core frame: build_id, function_name, file_name, fingerprint (lib/core_frame.c:81-120);
   python frame: file_name, function_name, line_contents (lib/python_frame.c:76-114);
   koops frame: function_name, module_name, from_function_name, from_module_name, special_stack
   (lib/koops_frame.c:77-123);
   java frame: file_name, name, class_path, message (lib/java_frame.c:92-154);
   gdb frame: function_name, function_type, source_file, library_name (lib/gdb_frame.c:90-133);
   ruby frame: file_name, function_name (lib/ruby_frame.c:77-111);
   js frame: file_name, function_name (lib/js_frame.c:82-116);
   java thread: name (lib/java_thread.c:83-117); gdb shared library: soname
   (lib/gdb_sharedlib.c:45-72); core stacktrace: executable (lib/core_stacktrace.c:90-121);
   python, ruby, js stacktrace: exception_name (lib/python_stacktrace.c:97-127,
   lib/ruby_stacktrace.c:96-126, lib/js_stacktrace.c:98-131);
   koops stacktrace: version, raw_oops, reason (lib/koops_stacktrace.c:121-163);
   rpm package: name, version, release, architecture, its consistency records: path, operating system: name,
   version, architecture, cpe, desktop, variant, and custom entries of a report: value, key
   (lib/rpm.c:53-69 and 806-818, lib/operating_system.c:50-63, lib/report.c:82-92).  The library has no functions
   that copy these four; reports are in HeapListModel.v. *)
Definition str_ops (k : kind) : list (bool * bool) :=
  match k with
  | KCoreFrame => [(true, true); (true, true); (true, true); (true, true)]
  | KPythonFrame => [(true, true); (true, true); (true, true)]
  | KKoopsFrame => [(true, true); (true, true); (true, true); (true, true); (true, true)]
  | KJavaFrame => [(true, true); (true, true); (true, true); (true, true)]
  | KGdbFrame => [(true, true); (true, true); (true, true); (true, true)]
  | KRubyFrame => [(true, true); (true, true)]
  | KJsFrame => [(true, true); (true, true)]
  | KCoreThread => []
  | KJavaThread => [(true, true)]
  | KGdbThread => []
  | KGdbLib => [(true, true)]
  | KCoreStack => [(true, true)]
  | KPythonStack => [(true, true)]
  | KKoopsStack => [(true, true); (true, true); (true, true)]
  | KJavaStack => []
  | KGdbStack => []
  | KRubyStack => [(true, true)]
  | KJsStack => [(true, true)]
  | KRpm => [(true, true); (true, true); (true, true); (true, true)]
  | KConsistency => [(true, true)]
  | KOs => [(true, true); (true, true); (true, true); (true, true); (true, true); (true, true)]
  | KAuth => [(true, true); (true, true)]
  | KReport => []
  end.
(* What a member holding a list of structures is: its type, and whether it is a whole list or a
   single structure (the crash frame of a gdb stacktrace).
   Threads: frames (lib/core_thread.c:74-110, lib/java_thread.c:83-117, lib/gdb_thread.c:82-118);
   single-threaded stacktraces: frames; core and java stacktraces: threads
   (lib/core_stacktrace.c:109-121, lib/java_stacktrace.c:97-107); gdb stacktrace: crash, threads,
   libs (lib/gdb_stacktrace.c:96-136). *)
Definition kid_ops (k : kind) : list (kind * bool) :=
  match k with
  | KCoreThread => [(KCoreFrame, true)]
  | KJavaThread => [(KJavaFrame, true)]
  | KGdbThread => [(KGdbFrame, true)]
  | KCoreStack => [(KCoreThread, true)]
  | KPythonStack => [(KPythonFrame, true)]
  | KKoopsStack => [(KKoopsFrame, true)]
  | KJavaStack => [(KJavaThread, true)]
  | KGdbStack => [(KGdbFrame, false); (KGdbThread, true); (KGdbLib, true)]
  | KRubyStack => [(KRubyFrame, true)]
  | KJsStack => [(KJsFrame, true)]
  | KRpm => [(KConsistency, true)]
  | _ => []
  end.

(** ** Copying *)
(* "if (result->s) result->s = g_strdup(result->s);" for each string member *)
Fixpoint dup_strs (h : heap) (ops : list (bool * bool)) (ps : list (option addr)) : res (heap * list (option addr)) :=
  match ops, ps with
  | (d, _) :: ops, p :: ps =>
    do (h, q) <- (if d then g_strdup h p else Ok (h, p));
    do (h, qs) <- dup_strs h ops ps;
    Ok (h, q :: qs)
  | _, _ => Ok (h, ps)
  end.
(* g_strdupv: copies the array and each string *)
Fixpoint dup_items (h : heap) (items : list addr) : res (heap * list addr) :=
  match items with
  | [] => Ok (h, [])
  | a :: r =>
    do s <- get_str h a;
    let '(h, b) := alloc h (CStr s) in
    do (h, bs) <- dup_items h r;
    Ok (h, b :: bs)
  end.
Definition g_strdupv (h : heap) (p : option addr) : res (heap * option addr) :=
  match p with
  | None => Ok (h, None)
  | Some a =>
    do c <- get h a;
    match c with
    | CArr items => do (h, bs) <- dup_items h items; let '(h, b) := alloc h (CArr bs) in Ok (h, Some b)
    | _ => UB
    end
  end.
(* "if (result->m) result->m = sr_..._dup(result->m, siblings);" for each owned list *)
Fixpoint dup_kids (dup : kind -> heap -> addr -> bool -> res (heap * addr)) (h : heap)
    (ops : list (kind * bool)) (ps : list (option addr)) : res (heap * list (option addr)) :=
  match ops, ps with
  | (k, sib) :: ops, p :: ps =>
    do (h, q) <- match p with
                  | None => Ok (h, None)
                  | Some a => do (h, b) <- dup k h a sib; Ok (h, Some b)
                  end;
    do (h, qs) <- dup_kids dup h ops ps;
    Ok (h, q :: qs)
  | _, _ => Ok (h, ps)
  end.
(* The dup functions, e.g. lib/gdb_frame.c:103-133 sr_gdb_frame_dup: allocate, memcpy, copy the
   siblings when asked (else next = NULL), then copy what the structure owns.  Borrowed pointers
   (crash_thread of a core stacktrace) keep the value memcpy gave them.  Simplification: the
   members of the new structure are stored at once at the end instead of one by one; nothing else
   can read it before the function returns. *)
Fixpoint dup (fuel : nat) (k : kind) (h : heap) (a : addr) (siblings : bool) : res (heap * addr) :=
  match fuel with
  | O => UB
  | S fuel =>
    do c <- get h a;
    match c with
    | CObj k' scal strs kids arr raw next =>
      if kind_beq k k' then
        let '(h, r) := alloc h c in
        do (h, next') <- (if siblings then
                             match next with
                             | None => Ok (h, None)
                             | Some n => do (h, m) <- dup fuel k h n true; Ok (h, Some m)
                             end
                           else Ok (h, None));
        do (h, strs') <- dup_strs h (str_ops k) strs;
        do (h, kids') <- dup_kids (dup fuel) h (kid_ops k) kids;
        do (h, arr') <- g_strdupv h arr;
        do h <- set_cell h r (CObj k scal strs' kids' arr' raw next');
        Ok (h, r)
      else UB
    | _ => UB
    end
  end.
(* enough fuel for any acyclic structure (theorem C52_deep_copy) *)
Definition sr_dup (k : kind) (h : heap) (a : addr) (siblings : bool) : res (heap * addr) :=
  dup (S (length h)) k h a siblings.

(** ** Freeing *)
Fixpoint free_strs (h : heap) (ops : list (bool * bool)) (ps : list (option addr)) : res heap :=
  match ops, ps with
  | (_, f) :: ops, p :: ps =>
    do h <- (if f then g_free_opt h p else Ok h);
    free_strs h ops ps
  | _, _ => Ok h
  end.
Fixpoint free_items (h : heap) (items : list addr) : res heap :=
  match items with
  | [] => Ok h
  | a :: r => do h <- g_free h a; free_items h r
  end.
(* g_strfreev *)
Definition g_strfreev (h : heap) (p : option addr) : res heap :=
  match p with
  | None => Ok h
  | Some a =>
    do c <- get h a;
    match c with CArr items => do h <- free_items h items; g_free h a | _ => UB end
  end.
Definition next_of (h : heap) (a : addr) : res (option addr) :=
  do c <- get h a; match c with CObj _ _ _ _ _ _ n => Ok n | _ => UB end.
(* "while (p) { x = p; p = x->next; sr_..._free(x); }" *)
Fixpoint free_list (free : heap -> addr -> res heap) (fuel : nat) (h : heap) (p : option addr) : res heap :=
  match p with
  | None => Ok h
  | Some a =>
    match fuel with
    | O => UB
    | S fuel => do n <- next_of h a; do h <- free h a; free_list free fuel h n
    end
  end.
Fixpoint free_kids (free : kind -> heap -> addr -> res heap) (fuel : nat) (h : heap)
    (ops : list (kind * bool)) (ps : list (option addr)) : res heap :=
  match ops, ps with
  | (k, sib) :: ops, p :: ps =>
    do h <- (if sib then free_list (free k) fuel h p
             else match p with None => Ok h | Some a => free k h a end);
    free_kids free fuel h ops ps
  | _, _ => Ok h
  end.
(* The free functions, e.g. lib/gdb_stacktrace.c:96-120 sr_gdb_stacktrace_free *)
Fixpoint free (fuel : nat) (k : kind) (h : heap) (a : addr) : res heap :=
  match fuel with
  | O => UB
  | S fuel =>
    do c <- get h a;
    match c with
    | CObj k' _ strs kids arr _ _ =>
      if kind_beq k k' then
        do h <- free_kids (free fuel) fuel h (kid_ops k) kids;
        do h <- g_strfreev h arr;
        do h <- free_strs h (str_ops k) strs;
        g_free h a
      else UB
    | _ => UB
    end
  end.
Definition sr_free (k : kind) (h : heap) (a : addr) : res heap := free (S (length h)) k h a.

(** ** Editing the frames of a thread *)
(* lib/generic_thread.h DEFINE_FRAMES_FUNC; for the single-threaded types the stacktrace is the
   thread.  Only structures whose first owned list is a list of frames are threads. *)
Definition frame_kind (k : kind) : option kind :=
  match k with
  | KCoreThread => Some KCoreFrame | KPythonStack => Some KPythonFrame | KKoopsStack => Some KKoopsFrame
  | KJavaThread => Some KJavaFrame | KGdbThread => Some KGdbFrame | KRubyStack => Some KRubyFrame
  | KJsStack => Some KJsFrame | _ => None
  end.
Definition thread_frames (h : heap) (t : addr) : res (option addr) :=
  do c <- get h t; match c with CObj _ _ _ (p :: _) _ _ _ => Ok p | _ => UB end.
Definition set_frames (h : heap) (t : addr) (p : option addr) : res heap :=
  do c <- get h t;
  match c with
  | CObj k scal strs (_ :: kids) arr raw next => set_cell h t (CObj k scal strs (p :: kids) arr raw next)
  | _ => UB
  end.
Definition set_next (h : heap) (a : addr) (n : option addr) : res heap :=
  do c <- get h a;
  match c with
  | CObj k scal strs kids arr raw _ => set_cell h a (CObj k scal strs kids arr raw n)
  | _ => UB
  end.
Definition opt_eqb (p : option addr) (a : addr) : bool :=
  match p with Some b => Nat.eqb b a | None => false end.
(* sr_frame_free: lib/generic_frame.c dispatches on the frame's type *)
Definition frame_free (h : heap) (a : addr) : res heap :=
  do c <- get h a; match c with CObj k _ _ _ _ _ _ => sr_free k h a | _ => UB end.
Definition kind_at (h : heap) (a : addr) : res kind :=
  do c <- get h a; match c with CObj k _ _ _ _ _ _ => Ok k | _ => UB end.

(* lib/generic_thread.c:35-47 thread_frame_count *)
Fixpoint count_from (fuel : nat) (h : heap) (p : option addr) : res nat :=
  match p with
  | None => Ok O
  | Some a =>
    match fuel with
    | O => UB
    | S fuel => do n <- next_of h a; do c <- count_from fuel h n; Ok (S c)
    end
  end.
Definition thread_frame_count (h : heap) (t : addr) : res nat :=
  do p <- thread_frames h t; count_from (length h) h p.

(* lib/generic_thread.c:49-73 thread_remove_frame; lib/gdb_thread.c:196-221 and
   lib/java_thread.c:184-209 are the same code for one frame type, and lib/koops_stacktrace.c:165-191
   sr_koops_stacktrace_remove_frame for the frames of a stack trace *)
Fixpoint remove_loop (fuel : nat) (h : heap) (t : addr) (frame : addr) (loop prev : option addr) : res (heap * bool) :=
  match loop with
  | None => Ok (h, false)
  | Some l =>
    match fuel with
    | O => UB
    | S fuel =>
      if Nat.eqb l frame then
        do n <- next_of h l;
        do h <- match prev with Some q => set_next h q n | None => set_frames h t n end;
        do h <- frame_free h l;
        Ok (h, true)
      else do n <- next_of h l; remove_loop fuel h t frame n (Some l)
    end
  end.
Definition thread_remove_frame (h : heap) (t frame : addr) : res (heap * bool) :=
  do p <- thread_frames h t; remove_loop (length h) h t frame p None.
(* lib/generic_thread.c:194-199 sr_thread_remove_frame: asserts equal types *)
Definition same_type (h : heap) (t frame : addr) : res unit :=
  do k <- kind_at h t; do f <- kind_at h frame;
  match frame_kind k with
  | Some fk => if kind_beq fk f then Ok tt else UB
  | None => UB
  end.
Definition sr_thread_remove_frame (h : heap) (t frame : addr) : res (heap * bool) :=
  do _ <- same_type h t frame; thread_remove_frame h t frame.

(* lib/generic_thread.c:75-100 thread_remove_frames_above; lib/gdb_thread.c:223-249 and
   lib/java_thread.c:211-237 are the same code for one frame type *)
Fixpoint present (fuel : nat) (h : heap) (frame : addr) (loop : option addr) : res bool :=
  match loop with
  | None => Ok false
  | Some l =>
    match fuel with
    | O => UB
    | S fuel => if Nat.eqb l frame then Ok true else do n <- next_of h l; present fuel h frame n
    end
  end.
Fixpoint above_loop (fuel : nat) (h : heap) (t frame : addr) : res heap :=
  match fuel with
  | O => UB
  | S fuel =>
    do p <- thread_frames h t;
    if opt_eqb p frame then Ok h
    else match p with
         | None => UB
         | Some l =>
           do n <- next_of h l;
           do h <- frame_free h l;
           do h <- set_frames h t n;
           above_loop fuel h t frame
         end
  end.
Definition thread_remove_frames_above (h : heap) (t frame : addr) : res (heap * bool) :=
  do p <- thread_frames h t;
  do b <- present (length h) h frame p;
  if b then do h <- above_loop (length h) h t frame; Ok (h, true) else Ok (h, false).
(* lib/generic_thread.c:201-206 *)
Definition sr_thread_remove_frames_above (h : heap) (t frame : addr) : res (heap * bool) :=
  do _ <- same_type h t frame; thread_remove_frames_above h t frame.

(* lib/gdb_thread.c:251-281 sr_gdb_thread_remove_frames_below_n (lib/java_thread.c:239-269 is the
   same code) *)
Fixpoint skip_frames (fuel : nat) (h : heap) (frame last : option addr) (i : Z) : res (option addr * option addr) :=
  match frame with
  | None => Ok (frame, last)
  | Some f =>
    if (i =? 0)%Z then Ok (frame, last)
    else match fuel with
         | O => UB
         | S fuel => do n <- next_of h f; skip_frames fuel h n frame (i - 1)%Z
         end
  end.
Definition remove_frames_below_n (h : heap) (t : addr) (n : Z) : res heap :=
  if (n <? 0)%Z then UB
  else
    do p <- thread_frames h t;
    do (frame, last) <- skip_frames (length h) h p None n;
    do h <- match last with Some l => set_next h l None | None => set_frames h t None end;
    free_list frame_free (length h) h frame.

(* lib/gdb_stacktrace.c:315-327 sr_gdb_stacktrace_limit_frame_depth; the second owned list of a
   gdb stacktrace is its threads *)
Fixpoint limit_loop (fuel : nat) (h : heap) (thread : option addr) (depth : Z) : res heap :=
  match thread with
  | None => Ok h
  | Some t =>
    match fuel with
    | O => UB
    | S fuel => do h <- remove_frames_below_n h t depth; do n <- next_of h t; limit_loop fuel h n depth
    end
  end.
Definition limit_frame_depth (h : heap) (s : addr) (depth : Z) : res heap :=
  if (depth <=? 0)%Z then UB
  else
    do c <- get h s;
    match c with
    | CObj KGdbStack _ _ [_; threads; _] _ _ _ => limit_loop (length h) h threads depth
    | _ => UB
    end.

(* lib/core_stacktrace.c:137-142 sr_core_stacktrace_find_crash_thread starts with
   "if (stacktrace->crash_thread) return stacktrace->crash_thread": the borrowed pointer *)
Definition core_known_crash_thread (h : heap) (s : addr) : res (option addr) :=
  do c <- get h s;
  match c with
  | CObj KCoreStack _ _ _ _ [p] _ => Ok p
  | _ => UB
  end.
