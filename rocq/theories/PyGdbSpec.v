(** * What the methods of a gdb stack trace that rebuild its list of threads shall do. *)
From Verif Require Import Base Types NormModel NormSpec CrashSpec TextModel HeapModel HeapSpec PyModel PySpec PyAttrModel PyAttrSpec PyBaseModel PyBaseSpec PyMethSpec.
Open Scope nat_scope.

(** One reference to a thread object was given up: it has one less; or, if that was the last, it is gone and its list of
    frames has lost one. *)
Definition thread_left (os os' : objects) (t : py_thread) : Prop :=
  (forall n b, object os (pt_ref t) (S (S n)) b ->
     object os' (pt_ref t) (S n) b /\ Forall (fun r => nth_error os' r = nth_error os r) (pt_list t :: pt_items t)) /\
  (forall b ml, object os (pt_ref t) 1 b -> object os (pt_list t) ml (PyList (pt_items t)) ->
     nth_error os' (pt_ref t) = Some None /\ gave_up os os' (pt_list t) ml (pt_items t)).
(** One reference to the list of threads was given up. *)
Definition threads_left (os os' : objects) (lt : ref) (ml : nat) (ts : list py_thread) : Prop :=
  (ml = 1 -> nth_error os' lt = Some None /\ Forall (thread_left os os') ts) /\
  (1 < ml -> object os' lt (ml - 1) (PyList (map pt_ref ts)) /\ Forall (fun r => nth_error os' r = nth_error os r) (concat (map pt_refs ts))).
(** The cells that go: the own cells of a thread object that had no other reference, and, if its list of frames had no other
    reference either, the cells of frame objects of which that is true as well. *)
Definition thread_lost (os : objects) (t : py_thread) (x : addr) : Prop :=
  (exists b, object os (pt_ref t) 1 b) /\
  (own_cells (pt_entry t) (pt_frames t) x \/ ((exists b, object os (pt_list t) 1 b) /\ In x (dying os (combine (pt_items t) (pt_frames t))))).
Definition threads_lost (os : objects) (ml : nat) (ts : list py_thread) (x : addr) : Prop := ml = 1 /\ exists t, In t ts /\ thread_lost os t x.

(** The object of a gdb stack trace that [m] variables refer to, with a list of threads that [ml] refer to; no two threads
    share a list of frames, and the list of libraries is yet another. *)
Definition py_gdb (os : objects) (h : heap) (r lt ll : ref) (at_ : list (option ref)) (m ml : nat) (n : option addr) (e : entry)
    (ts : list py_thread) (items : list ref) (libs : list entry) (s : gdb_stacktrace) : Prop :=
  object os r m (PyStruct KGdbStack (e_addr e) (Some lt :: Some ll :: at_)) /\ 0 < m /\ object os lt ml (PyList (map pt_ref ts)) /\ 0 < ml /\
  py_threads os lt KGdbThread KGdbFrame ts /\ NoDup (lt :: ll :: map pt_list ts) /\ py_list os ll KGdbLib items libs /\
  unlinked_gdb h n e ts libs /\ separate (e_foot e) /\ is_stack KGdbStack (e_val e) (SGdb s).
(** What Python still refers to: a thread whose object is not gone is what it was; so is a frame whose object is not gone,
    even if its thread is. *)
Definition sole (os : objects) (r : ref) : Prop := exists b, object os r 1 b.
Definition kept (os : objects) (h' : heap) (ml : nat) (ts : list py_thread) : Prop :=
  Forall (fun t =>
    (~ (ml = 1 /\ sole os (pt_ref t)) -> exists m, unlinked_thread h' KGdbThread KGdbFrame m (pt_entry t) (pt_frames t)) /\
    (forall r f, In (r, f) (combine (pt_items t) (pt_frames t)) -> ~ (ml = 1 /\ sole os (pt_ref t) /\ sole os (pt_list t) /\ sole os r) ->
       exists m, own h' KGdbFrame m f)) ts.
(** What is new afterwards: a list of new thread objects, for structures in memory that was free before; and what became of
    the old ones, whose structures were [ts] at the time their list was given up: they are freed or kept.  Nothing else but
    the cells [changed] has changed, and no memory is lost: what was allocated is part of the stack trace [e'] as it is now or of
    the old threads, or has been freed. *)
Definition rebuilt (os os' : objects) (h h' : heap) (r lt : ref) (ml : nat) (ts : list py_thread) (e' : entry) (lt' : ref) (ts' : list py_thread) (changed : list addr) : Prop :=
  new_threads (length os) os' lt' KGdbThread KGdbFrame ts' /\ (forall x, In x (foot (map pt_entry ts')) -> length h <= x) /\
  threads_left os os' lt ml ts /\
  (forall x, x < length os -> x <> r -> x <> lt -> (ml = 1 -> ~ In x (concat (map pt_refs ts))) -> nth_error os' x = nth_error os x) /\
  (forall x, x < length h -> ~ In x changed -> ~ threads_lost os ml ts x -> nth_error h' x = nth_error h x) /\
  (forall x, threads_lost os ml ts x -> freed h' x) /\ kept os h' ml ts /\
  (forall x, length h <= x < length h' -> In x (e_foot e') \/ In x (foot (map pt_entry ts)) \/ freed h' x).

(** The same objects and structures, which may have other contents. *)
Definition same_places (t u : py_thread) : Prop :=
  pt_ref u = pt_ref t /\ pt_list u = pt_list t /\ pt_items u = pt_items t /\
  e_addr (pt_entry u) = e_addr (pt_entry t) /\ map e_addr (pt_frames u) = map e_addr (pt_frames t).
(** A stack trace whose frames have the names of the libraries their addresses are in; [labelled] is part of C29. *)
Definition named_thread (libs : list gdb_sharedlib) (t u : gdb_thread) : Prop :=
  gt_number u = gt_number t /\ gt_tid u = gt_tid t /\ Forall2 (labelled libs) (gt_frames t) (gt_frames u).
Definition named_stack (s s' : gdb_stacktrace) : Prop :=
  gs_crash s' = gs_crash s /\ gs_libs s' = gs_libs s /\ gs_crash_tid s' = gs_crash_tid s /\ Forall2 (named_thread (gs_libs s)) (gs_threads s) (gs_threads s').

(** Structures in the cells [F] became structures in the cells [F'], some of them new; the others of [F] are freed, as
    is what was allocated in between, and nothing else has changed. *)
Definition turned (F F' : list addr) (h h' : heap) : Prop :=
  length h <= length h' /\ (forall x, x < length h -> ~ In x F -> nth_error h' x = nth_error h x) /\
  (forall x, In x F' -> In x F \/ length h <= x < length h') /\ (forall x, In x F -> ~ In x F' -> freed h' x) /\
  (forall x, length h <= x < length h' -> In x F' \/ freed h' x).
(** A function that turns a gdb stack trace of value [v] in memory, which nothing else refers to, into [s]. *)
Definition turns (f : heap -> addr -> res heap) (v : value) (s : gdb_stacktrace) : Prop :=
  forall h e, own h KGdbStack None e -> separate (e_foot e) -> e_val e = v ->
    exists h' e', f h (e_addr e) = Ok h' /\ own h' KGdbStack None e' /\ e_addr e' = e_addr e /\ separate (e_foot e') /\
      is_stack KGdbStack (e_val e') (SGdb s) /\ turned (e_foot e) (e_foot e') h h'.
(** A cell that refers to another. *)
Definition refers (c : cell) (x : addr) : Prop :=
  match c with
  | CObj _ _ strs kids arr raw next => In (Some x) (arr :: next :: strs ++ kids ++ raw)
  | CArr items => In x items
  | _ => False
  end.
