(** * What Python objects that wrap C structures hold. *)
From Verif Require Import Base HeapModel HeapSpec PyModel.
Open Scope nat_scope.

(** Object [r] is alive with [n] references. *)
Definition object (os : objects) (r : ref) (n : nat) (b : body) : Prop := nth_error os r = Some (Some (n, b)).
Definition alive (os : objects) (r : ref) (b : body) : Prop := exists n, object os r (S n) b.
(** The Python list [l] has the given items, and they are the objects of the structures [es], in order. *)
Definition py_list (os : objects) (l : ref) (k : kind) (items : list ref) (es : list entry) : Prop :=
  alive os l (PyList items) /\ Forall2 (fun r e => alive os r (PyStruct k (e_addr e) [])) items es.

(** [e] is the thread (or single-threaded stack trace) stored at its address, but with the frames [es] instead of those
    the structure points to: its own members are in memory, the frames are in memory, how they are linked does not
    matter.  A thread that shall have no frames must not point to any. *)
Definition unlinked_thread (h : heap) (k fk : kind) (n : option addr) (e : entry) (es : list entry) : Prop :=
  exists scal ps p ss fs arr sarr fa raw,
    frame_kind k = Some fk /\
    nth_error h (e_addr e) = Some (CObj k scal ps [p] arr raw n) /\ length ps = length (str_ops k) /\
    own_strs h ps ss fs /\ own_arr h arr sarr fa /\
    e_val e = Val scal ss sarr [map e_val es] /\ e_foot e = e_addr e :: fs ++ fa ++ foot es /\
    Forall (fun f => exists m, own h fk m f) es /\ (es = [] -> p = None).
(** The cells that linking the frames of a thread may write: the thread and its frames. *)
Definition link_cells (e : entry) (es : list entry) : list addr := e_addr e :: map e_addr es.

(** The Python list [l] holds thread objects: for each thread, its own list of frame objects. *)
Record py_thread := PT { pt_ref : ref; pt_list : ref; pt_items : list ref; pt_entry : entry; pt_frames : list entry }.
Definition py_threads (os : objects) (l : ref) (tk fk : kind) (ts : list py_thread) : Prop :=
  alive os l (PyList (map pt_ref ts)) /\
  Forall (fun t => alive os (pt_ref t) (PyStruct tk (e_addr (pt_entry t)) [Some (pt_list t)]) /\
                   py_list os (pt_list t) fk (pt_items t) (pt_frames t)) ts.
Definition unlinked_threads (h : heap) (tk fk : kind) (ts : list py_thread) : Prop :=
  Forall (fun t => exists n, unlinked_thread h tk fk n (pt_entry t) (pt_frames t)) ts.
Definition threads_cells (ts : list py_thread) : list addr := concat (map (fun t => link_cells (pt_entry t) (pt_frames t)) ts).

(** Likewise for a core or java stack trace: it shall have the threads of [ts], each with its own frames. *)
Definition unlinked_stack (h : heap) (k : kind) (n : option addr) (e : entry) (ts : list py_thread) : Prop :=
  exists tk fk scal ps p ss fs arr sarr fa raw,
    (k = KCoreStack \/ k = KJavaStack) /\ thread_type k = Some tk /\ frame_kind tk = Some fk /\
    nth_error h (e_addr e) = Some (CObj k scal ps [p] arr raw n) /\ length ps = length (str_ops k) /\
    own_strs h ps ss fs /\ own_arr h arr sarr fa /\
    e_val e = Val scal ss sarr [map e_val (map pt_entry ts)] /\
    e_foot e = e_addr e :: fs ++ fa ++ foot (map pt_entry ts) /\
    unlinked_threads h tk fk ts /\ (ts = [] -> p = None).
(** And for a gdb stack trace, whose shared libraries are the second list. *)
Definition unlinked_gdb (h : heap) (n : option addr) (e : entry) (ts : list py_thread) (libs : list entry) : Prop :=
  exists scal pc p pl crash arr sarr fa raw,
    nth_error h (e_addr e) = Some (CObj KGdbStack scal [] [pc; p; pl] arr raw n) /\ own_arr h arr sarr fa /\
    own_list h KGdbFrame pc crash /\ length crash <= 1 /\
    e_val e = Val scal [] sarr [map e_val crash; map e_val (map pt_entry ts); map e_val libs] /\
    e_foot e = e_addr e :: fa ++ foot crash ++ foot (map pt_entry ts) ++ foot libs /\
    unlinked_threads h KGdbThread KGdbFrame ts /\ (ts = [] -> p = None) /\
    Forall (fun f => exists m, own h KGdbLib m f) libs /\ (libs = [] -> pl = None).

(** Objects that existed before are as they were; [l] is a new list, of one reference, whose items are new objects for
    [es].  The items have two references although the list is the only one to use them. *)
Definition grown (os os' : objects) : Prop := length os <= length os' /\ forall r, r < length os -> nth_error os' r = nth_error os r.
Definition new_list (m : nat) (os : objects) (l : ref) (k : kind) (items : list ref) (es : list entry) : Prop :=
  m <= l /\ object os l 1 (PyList items) /\ Forall (fun r => m <= r) items /\
  Forall2 (fun r e => object os r 2 (PyStruct k (e_addr e) [])) items es.
Definition new_threads (m : nat) (os : objects) (l : ref) (tk fk : kind) (ts : list py_thread) : Prop :=
  m <= l /\ object os l 1 (PyList (map pt_ref ts)) /\
  Forall (fun t => m <= pt_ref t /\ object os (pt_ref t) 2 (PyStruct tk (e_addr (pt_entry t)) [Some (pt_list t)]) /\
                   new_list m os (pt_list t) fk (pt_items t) (pt_frames t)) ts.

(** Releasing one reference to each object of [ps]: one that had others keeps them, one that had no other is destroyed,
    and the cells of its structure are [dying]. *)
Definition lost_one (os os' : objects) (rs : list ref) : Prop :=
  (forall r n b, In r rs -> object os r (S (S n)) b -> object os' r (S n) b) /\
  (forall r b, In r rs -> object os r 1 b -> nth_error os' r = Some None).
Definition dying (os : objects) (ps : list (ref * entry)) : list addr :=
  concat (map (fun p => match nth_error os (fst p) with Some (Some (1, _)) => e_foot (snd p) | _ => [] end) ps).
Definition all_freed (f : list addr) (h h' : heap) : Prop := length h' = length h /\ same_outside f h h' /\ forall x, In x f -> freed h' x.
(** The cells of a structure that belong to none of its [es]. *)
Definition own_cells (e : entry) (es : list entry) (x : addr) : Prop := In x (e_foot e) /\ ~ In x (foot es).

(** An object that is not of type [k]; one that no list of threads of type [tk] may contain: a first item of any thread
    type is accepted and settles the type. *)
Definition wrong (os : objects) (r : ref) (k : kind) : Prop :=
  exists b, alive os r b /\ (forall c at_, b <> PyStruct k c at_).
Definition bad_thread (os : objects) (r : ref) (tk : kind) (first : bool) : Prop :=
  exists b, alive os r b /\ (forall c a, b <> PyStruct tk c a) /\ (first = true -> forall k c a, b = PyStruct k c a -> frame_kind k = None).

(** The thread objects and their lists have one reference each, the frame objects any number. *)
Definition sole_threads (os : objects) (tk fk : kind) (ts : list py_thread) : Prop :=
  Forall (fun t => object os (pt_ref t) 1 (PyStruct tk (e_addr (pt_entry t)) [Some (pt_list t)]) /\ object os (pt_list t) 1 (PyList (pt_items t)) /\
                   Forall2 (fun r e => alive os r (PyStruct fk (e_addr e) [])) (pt_items t) (pt_frames t)) ts.
Definition pt_refs (t : py_thread) : list ref := pt_ref t :: pt_list t :: pt_items t.
(** The cells of a thread that go when it is destroyed: its own, and those of frames no other list or variable refers to. *)
Definition thread_dying (os : objects) (t : py_thread) (x : addr) : Prop :=
  own_cells (pt_entry t) (pt_frames t) x \/ In x (dying os (combine (pt_items t) (pt_frames t))).
