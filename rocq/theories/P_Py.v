(** * C69: lists of Python objects and the linked lists of the C structures they wrap *)
From Verif Require Import Base HeapModel HeapSpec HeapListModel PyModel PySpec PyProofs2 PyProofs3 PyProofs4 PyProofs5 PyProofs8 PyProofs9.
Open Scope nat_scope.

(** Before the library is called on a thread (or a single-threaded stack trace), its frames are linked in the order of
    the Python list: the C thread then has exactly those frames, only links were written, and no reference count changed. *)
Theorem C69_frames_linked : forall os h r tk fk n e l items es at_,
  alive os r (PyStruct tk (e_addr e) (Some l :: at_)) -> py_list os l fk items es -> unlinked_thread h tk fk n e es -> separate (e_foot e) ->
  exists h', frames_prepare (St os h) r = Ok (St os h', true) /\ own h' tk n e /\ same_outside (link_cells e es) h h' /\ length h' = length h.
Proof. exact frames_prepare_ok. Qed.
(** The same for the threads of core and java stack traces, each with its frames. *)
Theorem C69_threads_linked : forall os h r k tk fk n e l ts at_, thread_type k = Some tk -> frame_kind tk = Some fk ->
  alive os r (PyStruct k (e_addr e) (Some l :: at_)) -> py_threads os l tk fk ts -> unlinked_stack h k n e ts -> separate (e_foot e) ->
  exists h', threads_prepare (St os h) r = Ok (St os h', true) /\ own h' k n e /\ same_outside (e_addr e :: threads_cells ts) h h' /\ length h' = length h.
Proof. exact stack_prepare_ok. Qed.
(** A gdb stack trace gets its threads and its shared libraries. *)
Theorem C69_gdb_linked : forall os h r n e lt ll ts items libs at_,
  alive os r (PyStruct KGdbStack (e_addr e) (Some lt :: Some ll :: at_)) -> py_threads os lt KGdbThread KGdbFrame ts -> py_list os ll KGdbLib items libs ->
  unlinked_gdb h n e ts libs -> separate (e_foot e) ->
  exists h', gdb_prepare (St os h) r = Ok (St os h', true) /\ own h' KGdbStack n e /\
    same_outside (e_addr e :: threads_cells ts ++ map e_addr libs) h h' /\ length h' = length h.
Proof. exact gdb_prepare_ok. Qed.
(** A report gets its packages. *)
Theorem C69_packages_linked : forall os h r c l items es at_ scal strs o p t u arr raw n,
  alive os r (PyStruct KReport c (Some l :: at_)) -> py_list os l KRpm items es ->
  nth_error h c = Some (CObj KReport scal strs [o; p; t; u] arr raw n) ->
  Forall (fun e => exists m, own h KRpm m e) es -> separate (c :: foot es) -> (es = [] -> p = None) ->
  exists h' p', rpms_prepare (St os h) r = Ok (St os h', true) /\
    nth_error h' c = Some (CObj KReport scal strs [o; p'; t; u] arr raw n) /\ own_list h' KRpm p' es /\
    same_outside (c :: map e_addr es) h h' /\ length h' = length h.
Proof. exact rpms_prepare_ok. Qed.
(** An item of another type among the frames: an exception, and no reference count changed; what came before it may have
    been linked. *)
Theorem C69_wrong_frame : forall os h r tk fk c l good es bad rest at_ scal ps p arr raw n, frame_kind tk = Some fk ->
  alive os r (PyStruct tk c (Some l :: at_)) -> alive os l (PyList (good ++ bad :: rest)) ->
  Forall2 (fun r e => alive os r (PyStruct fk (e_addr e) [])) good es -> wrong os bad fk ->
  nth_error h c = Some (CObj tk scal ps [p] arr raw n) -> Forall (fun e => exists n, own h fk n e) es -> separate (c :: foot es) ->
  exists h', frames_prepare (St os h) r = Ok (St os h', false) /\ same_outside (c :: map e_addr es) h h' /\ length h' = length h.
Proof. exact wrong_frame. Qed.
Theorem C69_wrong_package : forall os h r c l good es bad rest at_ scal strs o p t u arr raw n,
  alive os r (PyStruct KReport c (Some l :: at_)) -> alive os l (PyList (good ++ bad :: rest)) ->
  Forall2 (fun r e => alive os r (PyStruct KRpm (e_addr e) [])) good es -> wrong os bad KRpm ->
  nth_error h c = Some (CObj KReport scal strs [o; p; t; u] arr raw n) -> Forall (fun e => exists n, own h KRpm n e) es -> separate (c :: foot es) ->
  exists h', rpms_prepare (St os h) r = Ok (St os h', false) /\ same_outside (c :: map e_addr es) h h' /\ length h' = length h.
Proof. exact wrong_package. Qed.

(** Packages that are no list raise an exception as well. *)
Theorem C69_packages_no_list : forall os h r c l at_ b m, alive os r (PyStruct KReport c (Some l :: at_)) -> object os l m b -> (forall items, b <> PyList items) ->
  rpms_prepare (St os h) r = Ok (St os h, false).
Proof. exact packages_no_list. Qed.
(** Wrapping a C list makes a new Python list with one new object for each structure, in order; no object that existed
    and no C structure changes. *)
Theorem C69_wrapped : forall k os h p es, own_list h k p es -> separate (foot es) ->
  exists os' l items, wrap_list k (St os h) p = Ok (St os' h, l) /\ grown os os' /\ new_list (length os) os' l k items es /\ NoDup (l :: items).
Proof. exact wrapped_list. Qed.
Theorem C69_stack_wrapped : forall os h k tk fk n e, own h k n e -> (k = KCoreStack \/ k = KJavaStack) -> thread_type k = Some tk -> frame_kind tk = Some fk -> separate (e_foot e) ->
  exists os' l ts, threads_to_python (St os h) k (e_addr e) = Ok (St os' h, l) /\ grown os os' /\
    new_threads (length os) os' l tk fk ts /\ unlinked_stack h k n e ts.
Proof. exact stack_wrapped. Qed.
Theorem C69_gdb_wrapped : forall os h n e, own h KGdbStack n e -> separate (e_foot e) ->
  exists os1 l ts os2 ll items libs pl, threads_to_python (St os h) KGdbStack (e_addr e) = Ok (St os1 h, l) /\
    (exists scal strs pc pt arr raw, nth_error h (e_addr e) = Some (CObj KGdbStack scal strs [pc; pt; pl] arr raw n)) /\
    wrap_list KGdbLib (St os1 h) pl = Ok (St os2 h, ll) /\ grown os os1 /\ grown os1 os2 /\
    new_threads (length os) os2 l KGdbThread KGdbFrame ts /\ new_list (length os) os2 ll KGdbLib items libs /\ unlinked_gdb h n e ts libs.
Proof. exact gdb_wrapped. Qed.
(** There and back: wrapping the frames of a thread and linking them again, in any later state in which the list still
    holds those objects and the thread is still there, gives the thread its frames back. *)
Theorem C69_there_and_back : forall os h tk fk n e, own h tk n e -> frame_kind tk = Some fk -> separate (e_foot e) ->
  exists os1 l items es, frames_to_python (St os h) fk (e_addr e) = Ok (St os1 h, l) /\ grown os os1 /\ new_list (length os) os1 l fk items es /\ unlinked_thread h tk fk n e es /\
    (forall os2 h2 r at_, alive os2 r (PyStruct tk (e_addr e) (Some l :: at_)) -> py_list os2 l fk items es -> same_on (e_foot e) h h2 ->
       exists h', frames_prepare (St os2 h2) r = Ok (St os2 h', true) /\ own h' tk n e).
Proof. exact frames_back. Qed.

(** The dup methods: a new object, with new lists, around a C structure of the same value in cells of its own; the
    original is linked and otherwise untouched. *)
Theorem C69_thread_dup : forall os h r tk fk n e l items es at_,
  alive os r (PyStruct tk (e_addr e) (Some l :: at_)) -> py_list os l fk items es -> unlinked_thread h tk fk n e es -> separate (e_foot e) ->
  exists os' h' o d l' items' es', thread_dup (St os h) r = Ok (St os' h', Some o) /\ grown os os' /\ length os <= o /\
    object os' o 1 (PyStruct tk (e_addr d) [Some l']) /\ new_list (length os) os' l' fk items' es' /\ unlinked_thread h' tk fk None d es' /\
    own h' tk n e /\ own h' tk None d /\ e_val d = e_val e /\ separate (e_foot d) /\ (forall x, In x (e_foot d) -> length h <= x) /\
    (forall x, x < length h -> ~ In x (link_cells e es) -> nth_error h' x = nth_error h x).
Proof. exact thread_dup_ok. Qed.
Theorem C69_stack_dup : forall os h r k tk fk n e l ts at_, thread_type k = Some tk -> frame_kind tk = Some fk ->
  alive os r (PyStruct k (e_addr e) (Some l :: at_)) -> py_threads os l tk fk ts -> unlinked_stack h k n e ts -> separate (e_foot e) ->
  exists os' h' o d l' ts', stack_dup (St os h) r = Ok (St os' h', Some o) /\ grown os os' /\ length os <= o /\
    object os' o 1 (PyStruct k (e_addr d) [Some l']) /\ new_threads (length os) os' l' tk fk ts' /\ unlinked_stack h' k None d ts' /\
    own h' k n e /\ own h' k None d /\ e_val d = e_val e /\ separate (e_foot d) /\ (forall x, In x (e_foot d) -> length h <= x) /\
    (forall x, x < length h -> ~ In x (e_addr e :: threads_cells ts) -> nth_error h' x = nth_error h x).
Proof. exact stack_dup_ok. Qed.
(** Of a gdb stack trace whose crash frame is not a frame object (it has not been looked for, see C70). *)
Theorem C69_gdb_dup : forall os h r n e lt ll ts items libs cf b,
  alive os r (PyStruct KGdbStack (e_addr e) [Some lt; Some ll; Some cf]) -> alive os cf b -> (forall c a, b <> PyStruct KGdbFrame c a) ->
  py_threads os lt KGdbThread KGdbFrame ts -> py_list os ll KGdbLib items libs -> unlinked_gdb h n e ts libs -> separate (e_foot e) ->
  exists os' h' o d lt' ts' ll' items' libs', gdb_dup (St os h) r = Ok (St os' h', Some o) /\ grown os os' /\ length os <= o /\
    object os' o 1 (PyStruct KGdbStack (e_addr d) [Some lt'; Some ll'; Some cf]) /\ new_threads (length os) os' lt' KGdbThread KGdbFrame ts' /\
    new_list (length os) os' ll' KGdbLib items' libs' /\ unlinked_gdb h' None d ts' libs' /\
    own h' KGdbStack n e /\ own h' KGdbStack None d /\ e_val d = e_val e /\ separate (e_foot d) /\ (forall x, In x (e_foot d) -> length h <= x) /\
    (forall x, x < length h -> ~ In x (e_addr e :: threads_cells ts ++ map e_addr libs) -> nth_error h' x = nth_error h x).
Proof. exact gdb_dup_ok. Qed.

(** The crash thread of a stack trace is the object of the list that wraps the thread the library finds, with one more
    reference; None if it finds none. *)
Theorem C69_crash_thread : forall os h r k tk fk n e l ts at_ find_crash, thread_type k = Some tk -> frame_kind tk = Some fk ->
  alive os r (PyStruct k (e_addr e) (Some l :: at_)) -> py_threads os l tk fk ts -> unlinked_stack h k n e ts -> separate (e_foot e) ->
  exists h', own h' k n e /\ same_outside (e_addr e :: threads_cells ts) h h' /\ length h' = length h /\
    (find_crash h' (e_addr e) = Ok None -> get_crash find_crash (St os h) r = Ok (St os h', Some None)) /\
    (forall t, In t ts -> find_crash h' (e_addr e) = Ok (Some (e_addr (pt_entry t))) ->
       exists st', incref (St os h') (pt_ref t) = Ok st' /\ get_crash find_crash (St os h) r = Ok (st', Some (Some (pt_ref t)))).
Proof. exact get_crash_ok. Qed.

(** The array of threads that distances are computed from: the C threads of the objects in the list, in order, each
    linked; a list with anything else than threads of one type raises an exception. *)
Theorem C69_thread_array : forall os tk fk ts h, frame_kind tk = Some fk ->
  Forall (fun t => alive os (pt_ref t) (PyStruct tk (e_addr (pt_entry t)) [Some (pt_list t)]) /\ py_list os (pt_list t) fk (pt_items t) (pt_frames t)) ts ->
  unlinked_threads h tk fk ts -> separate (foot (map pt_entry ts)) ->
  exists h', thread_array (map pt_ref ts) None (St os h) = Ok (St os h', Some (map (fun t => e_addr (pt_entry t)) ts)) /\
    Forall (fun t => exists n, own h' tk n (pt_entry t)) ts /\ same_outside (threads_cells ts) h h' /\ length h' = length h.
Proof. exact thread_array_all. Qed.
Theorem C69_thread_array_wrong : forall os tk fk bad rest ts h, frame_kind tk = Some fk ->
  Forall (fun t => alive os (pt_ref t) (PyStruct tk (e_addr (pt_entry t)) [Some (pt_list t)]) /\ py_list os (pt_list t) fk (pt_items t) (pt_frames t)) ts ->
  unlinked_threads h tk fk ts -> separate (foot (map pt_entry ts)) -> bad_thread os bad tk (match ts with [] => true | _ => false end) ->
  exists h', thread_array (map pt_ref ts ++ bad :: rest) None (St os h) = Ok (St os h', None) /\ same_outside (threads_cells ts) h h' /\ length h' = length h.
Proof. exact thread_array_wrong. Qed.

(** Assigning an empty list: the C thread still points to the frames, which are released with the old list. *)
Theorem C69_emptied_refuted : exists st r l e, own (mem st) KCoreThread None e /\ object (objs st) l 1 (PyList []) /\
  (exists st1 st2, set_attr st r 0 l = Ok st1 /\ object (objs st1) r 1 (PyStruct KCoreThread (e_addr e) [Some l]) /\
     frames_prepare st1 r = Ok (st2, true) /\ (exists a, thread_frames (mem st2) (e_addr e) = Ok (Some a) /\ freed (mem st2) a) /\ thread_dup st1 r = UB).
Proof. exact emptied. Qed.
(** One frame object twice in a list, or in the lists of two threads: frames are lost. *)
Theorem C69_twice_refuted : exists os h r l items es st', alive os r (PyStruct KCoreThread 0 [Some l]) /\ py_list os l KCoreFrame items es /\ length items = 2 /\
  Forall (fun e => exists n, own h KCoreFrame n e) es /\ frames_prepare (St os h) r = Ok (st', true) /\
  (exists p, thread_frames (mem st') 0 = Ok p /\ list_count (mem st') p = Ok 1).
Proof. exact twice. Qed.
Theorem C69_shared_refuted : exists os h r t l es st', alive os t (PyStruct KCoreThread 1 [Some l]) /\ py_list os l KCoreFrame [6; 7] es /\ Forall (fun e => exists n, own h KCoreFrame n e) es /\
  separate (foot es) /\ threads_prepare (St os h) r = Ok (st', true) /\ (exists p, thread_frames (mem st') 1 = Ok p /\ list_count (mem st') p = Ok 1).
Proof. exact shared. Qed.

(** A thread object with two frame objects, not linked yet; a stack trace with two threads. *)
Example C69_two : alive two_objs 0 (PyStruct KCoreThread (e_addr two_thread) [Some 1]) /\ py_list two_objs 1 KCoreFrame [2; 3] two_frames /\
  unlinked_thread two_heap KCoreThread KCoreFrame None two_thread two_frames /\ separate (e_foot two_thread) /\
  thread_frames two_heap 0 = Ok None /\ (exists st', frames_prepare (St two_objs two_heap) 0 = Ok (st', true) /\ thread_frames (mem st') 0 = Ok (Some 1) /\ next_of (mem st') 1 = Ok (Some 2)).
Proof.
  split; [exists 0; reflexivity|]. split; [exact two_list|]. split; [exact two_unlinked|]. split; [repeat constructor; cbn; intuition discriminate|]. split; [reflexivity|].
  eexists. repeat split; reflexivity.
Qed.
Example C69_stack : alive st_objs 0 (PyStruct KCoreStack (e_addr st_entry) [Some 1]) /\ py_threads st_objs 1 KCoreThread KCoreFrame st_threads /\
  unlinked_stack st_heap KCoreStack None st_entry st_threads /\ separate (e_foot st_entry) /\ own one_heap KCoreThread None one_thread.
Proof.
  split; [exists 0; reflexivity|]. split; [exact st_list|]. split; [exact st_unlinked|]. split; [repeat constructor; cbn; intuition discriminate|exact one_own].
Qed.
Print Assumptions C69_frames_linked.
Print Assumptions C69_threads_linked.
Print Assumptions C69_gdb_linked.
Print Assumptions C69_packages_linked.
Print Assumptions C69_wrong_frame.
Print Assumptions C69_wrong_package.
Print Assumptions C69_packages_no_list.
Print Assumptions C69_wrapped.
Print Assumptions C69_stack_wrapped.
Print Assumptions C69_gdb_wrapped.
Print Assumptions C69_there_and_back.
Print Assumptions C69_thread_dup.
Print Assumptions C69_stack_dup.
Print Assumptions C69_gdb_dup.
Print Assumptions C69_crash_thread.
Print Assumptions C69_thread_array.
Print Assumptions C69_thread_array_wrong.
Print Assumptions C69_emptied_refuted.
Print Assumptions C69_twice_refuted.
Print Assumptions C69_shared_refuted.
