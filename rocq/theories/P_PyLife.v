(** * C70: how long Python objects and the C structures they wrap live *)
From Verif Require Import Base HeapModel HeapSpec HeapListModel PyModel PySpec PyProofs6 PyProofs7 PyProofs8 PyProofs9.
Open Scope nat_scope.

(** Dropping the last reference to a thread (or single-threaded stack trace): its own cells are freed, each frame object
    loses one reference, and the frames nobody else refers to are freed; every other object and cell stays as it was. *)
Theorem C70_thread_destroyed : forall os h r l tk fk n e items es,
  object os r 1 (PyStruct tk (e_addr e) [Some l]) -> object os l 1 (PyList items) -> Forall2 (fun r e => alive os r (PyStruct fk (e_addr e) [])) items es ->
  unlinked_thread h tk fk n e es -> separate (e_foot e) ->
  exists os' h', decref (St os h) r = Ok (St os' h') /\ length os' = length os /\ nth_error os' r = Some None /\ nth_error os' l = Some None /\
    lost_one os os' items /\ (forall x, x <> r -> x <> l -> ~ In x items -> nth_error os' x = nth_error os x) /\
    exists f, all_freed f h h' /\ (forall x, In x f <-> own_cells e es x \/ In x (dying os (combine items es))).
Proof. exact thread_gone. Qed.
(** The same for a core or java stack trace with all its threads. *)
Theorem C70_stack_destroyed : forall os h r l k tk fk n e ts, thread_type k = Some tk -> frame_kind tk = Some fk ->
  object os r 1 (PyStruct k (e_addr e) [Some l]) -> object os l 1 (PyList (map pt_ref ts)) -> sole_threads os tk fk ts -> NoDup (l :: map pt_list ts) ->
  unlinked_stack h k n e ts -> separate (e_foot e) ->
  exists os' h', decref (St os h) r = Ok (St os' h') /\ length os' = length os /\ nth_error os' r = Some None /\ nth_error os' l = Some None /\
    (forall t, In t ts -> nth_error os' (pt_ref t) = Some None /\ nth_error os' (pt_list t) = Some None /\ lost_one os os' (pt_items t)) /\
    (forall x, x <> r -> x <> l -> ~ In x (concat (map pt_refs ts)) -> nth_error os' x = nth_error os x) /\
    exists f, all_freed f h h' /\ (forall x, In x f <-> own_cells e (map pt_entry ts) x \/ exists t, In t ts /\ thread_dying os t x).
Proof. exact stack_gone. Qed.

(** A gdb stack trace whose lists the program still uses: they lose a reference, and exactly the cells of the stack trace
    itself, its crash frame among them, are freed. *)
Theorem C70_gdb_destroyed : forall os h r lt ll n e ts libs cf nt nl b1 b2, lt <> ll ->
  object os r 1 (PyStruct KGdbStack (e_addr e) [Some lt; Some ll; cf]) -> object os lt (S (S nt)) b1 -> object os ll (S (S nl)) b2 ->
  unlinked_gdb h n e ts libs -> separate (e_foot e) ->
  exists os' h', decref (St os h) r = Ok (St os' h') /\ length os' = length os /\ nth_error os' r = Some None /\
    object os' lt (S nt) b1 /\ object os' ll (S nl) b2 /\ (forall x, x <> r -> x <> lt -> x <> ll -> nth_error os' x = nth_error os x) /\
    exists f, all_freed f h h' /\ (forall x, In x f <-> own_cells e (map pt_entry ts ++ libs) x).
Proof. exact gdb_gone. Qed.

(** Objects made by wrapping a C list are never destroyed: when the list goes, each still has a reference nobody owns,
    and no C structure is freed. *)
Theorem C70_wrapped_leak_refuted : forall os h k p es,
  In k [KCoreFrame; KPythonFrame; KKoopsFrame; KJavaFrame; KGdbFrame; KRubyFrame; KJsFrame; KGdbLib] -> own_list h k p es -> separate (foot es) ->
  exists os1 l items os2, wrap_list k (St os h) p = Ok (St os1 h, l) /\ length items = length es /\ object os1 l 1 (PyList items) /\
    decref (St os1 h) l = Ok (St os2 h) /\ nth_error os2 l = Some None /\ Forall2 (fun r e => object os2 r 1 (PyStruct k (e_addr e) [])) items es.
Proof. intros os h k p es Hk. exact (wrapped_leak os h k p es (plain_kinds k Hk)). Qed.
(** A list of threads that contains something else: the exception destroys a thread that is still in the list, so the
    next use of the list goes wrong, and the other item is never released. *)
Theorem C70_error_path_refuted : exists os h r l t o st', object os r 1 (PyStruct KCoreStack 0 [Some l]) /\ object os l 1 (PyList [t; o]) /\
  object os t 1 (PyStruct KCoreThread 1 [Some 3]) /\ object os o 1 PyOther /\ threads_prepare (St os h) r = Ok (st', false) /\
  object (objs st') l 1 (PyList [t; o]) /\ nth_error (objs st') t = Some None /\ object (objs st') o 2 PyOther /\ threads_prepare st' r = UB.
Proof. exact error_path. Qed.
(** limit_frame_depth of a stack trace built from Python objects frees frames twice. *)
Theorem C70_limit_twice_refuted : gdb_prepare (St (gdb_objs 1) gdb_heap) 0 <> UB /\ py_limit_frame_depth (St (gdb_objs 1) gdb_heap) 0 1 = UB.
Proof. exact limit_twice. Qed.
(** Of one made by parsing, a frame object that was kept wraps a frame that has been freed; the stack trace and its new
    list agree, in structures of their own. *)
Theorem C70_limit_held_refuted : exists st', py_limit_frame_depth (St (gdb_objs 2) gdb_heap) 0 1 = Ok (st', true) /\
  object (objs st') 7 2 (PyStruct KGdbFrame 3 []) /\ freed (mem st') 3 /\
  exists l t lf f c d, object (objs st') 0 1 (PyStruct KGdbStack 0 [Some l; Some 2; Some 3]) /\ object (objs st') l 1 (PyList [t]) /\
    object (objs st') t 2 (PyStruct KGdbThread c [Some lf]) /\ object (objs st') lf 1 (PyList [f]) /\ object (objs st') f 2 (PyStruct KGdbFrame d []) /\
    length gdb_heap <= c /\ length gdb_heap <= d /\ gdb_threads (mem st') 0 = Ok (Some c) /\ thread_frames (mem st') c = Ok (Some d) /\ next_of (mem st') d = Ok None.
Proof. exact limit_held. Qed.
(** Of one without threads, it reads through a null pointer. *)
Theorem C70_limit_none_refuted : exists h, gdb_prepare (St none_objs none_heap) 0 = Ok (St none_objs h, true) /\ limit_frame_depth h 0 1 = Ok h /\
  py_limit_frame_depth (St none_objs none_heap) 0 1 = UB.
Proof. exact limit_none. Qed.
(** find_crash_frame: the stack trace keeps the frame object without a reference of its own, so it is left with a
    destroyed object when the caller drops the result; and dup, from then on, takes the frame for a thread. *)
Theorem C70_crash_frame_refuted : exists st' f, py_find_crash_frame some_crash (St (gdb_objs 2) gdb_heap) 0 = Ok (st', Some f) /\
  (exists l, object (objs st') 0 1 (PyStruct KGdbStack 0 [Some l; Some 2; Some f])) /\ (exists c, object (objs st') f 1 (PyStruct KGdbFrame c [])) /\
  gdb_dup st' 0 = UB /\
  exists st2, decref st' f = Ok st2 /\ nth_error (objs st2) f = Some None /\ (exists l, object (objs st2) 0 1 (PyStruct KGdbStack 0 [Some l; Some 2; Some f])).
Proof. exact crash_frame. Qed.

(** A stack trace with two threads, one of whose frames the program has kept. *)
Example C70_sample : object st_objs 0 1 (PyStruct KCoreStack (e_addr st_entry) [Some 1]) /\ object st_objs 1 1 (PyList (map pt_ref st_threads)) /\
  sole_threads st_objs KCoreThread KCoreFrame st_threads /\ NoDup (1 :: map pt_list st_threads) /\ unlinked_stack st_heap KCoreStack None st_entry st_threads /\
  separate (e_foot st_entry) /\ (exists st', decref (St st_objs st_heap) 0 = Ok st' /\ object (objs st') 7 1 (PyStruct KCoreFrame 4 []) /\ nth_error (mem st') 4 = nth_error st_heap 4 /\ freed (mem st') 3).
Proof.
  split; [reflexivity|]. split; [reflexivity|]. split; [exact st_sole|]. split; [repeat constructor; cbn; intuition discriminate|]. split; [exact st_unlinked|].
  split; [repeat constructor; cbn; intuition discriminate|]. eexists. split; [run|]. repeat split; reflexivity.
Qed.
(** A gdb stack trace with one library, both lists in use elsewhere. *)
Definition lib_heap : heap := [CObj KGdbStack [1%Z] [] [None; None; None] None [] None; CObj KGdbLib [1%Z; 2%Z; 0%Z] [None] [] None [] None].
Example C70_gdb_sample : unlinked_gdb lib_heap None (0, Val [1%Z] [] None [[]; []; [Val [1%Z; 2%Z; 0%Z] [None] None []]], [0; 1]) []
    [(1, Val [1%Z; 2%Z; 0%Z] [None] None [], [1])] /\
  object [Some (1, PyStruct KGdbStack 0 [Some 1; Some 2; Some 3]); Some (2, PyList []); Some (2, PyList [4]); Some (1, PyOther); Some (1, PyStruct KGdbLib 1 [])] 0 1 (PyStruct KGdbStack 0 [Some 1; Some 2; Some 3]).
Proof.
  split; [|reflexivity]. exists [1%Z], None, None, None, [], None, None, [], []. split; [reflexivity|]. split; [constructor|]. split; [constructor|]. split; [cbn; lia|].
  split; [reflexivity|]. split; [reflexivity|]. split; [constructor|]. split; [reflexivity|]. split; [|discriminate]. constructor; [|constructor]. exists None.
  refine (own_obj lib_heap KGdbLib 1 _ [None] [None] [] [] [] [] None None [] [] None eq_refl eq_refl _ _ _); repeat constructor.
Qed.
Print Assumptions C70_thread_destroyed.
Print Assumptions C70_stack_destroyed.
Print Assumptions C70_gdb_destroyed.
Print Assumptions C70_wrapped_leak_refuted.
Print Assumptions C70_error_path_refuted.
Print Assumptions C70_limit_twice_refuted.
Print Assumptions C70_limit_held_refuted.
Print Assumptions C70_limit_none_refuted.
Print Assumptions C70_crash_frame_refuted.
