(** * C75: comparing, hashing and printing frames, threads and stack traces in Python. *)
From Coq Require Import QArith.
From Verif Require Import Base Types NormSpec NormModel CmpModel CmpSpec TextModel TextSpec DistModel CrashModel HeapModel HeapSpec PyModel PySpec PyAttrModel PyAttrSpec PyBaseModel
  PyBaseSpec PyBaseProofs PyBaseProofs2 PyBaseProofs3 PyBaseProofs4.
Open Scope nat_scope.

(** short_string of a frame is the text the library prints for it, which shows the frame's names; a text that is not UTF-8
    raises an exception. *)
Theorem C75_frame_short_string : forall os h r k n e f, py_frame os h r k n e f -> printable f ->
  exists s a, sr_frame_append_to_str f = Ok s /\ Forall (fun w => infix w s) (frame_shows f) /\ frame_short_string (St os h) r = Ok (St os h, a) /\ gives_text a s.
Proof. exact short_string_ok. Qed.
(** gdb frames have no such function. *)
Theorem C75_gdb_short_string_refuted : forall os h r n e f, py_frame os h r KGdbFrame n e (FGdb f) -> frame_short_string (St os h) r = UB.
Proof. exact short_string_gdb. Qed.
(** Two frames of one type are equal if they agree in what the type compares; frames of different types are not; anything
    else raises an exception.  Nothing changes. *)
Theorem C75_frame_equals : forall os h r1 r2 k n1 n2 e1 e2 f g, py_frame os h r1 k n1 e1 f -> py_frame os h r2 k n2 e2 g -> in_range f -> in_range g ->
  exists b, frame_equals (St os h) r1 r2 = Ok (St os h, Value b) /\ (b = true <-> frames_agree f g).
Proof. exact frame_equals_ok. Qed.
Theorem C75_frame_equals_types : forall os h r1 r2 k1 k2 c1 c2 a1 a2, alive os r1 (PyStruct k1 c1 a1) -> alive os r2 (PyStruct k2 c2 a2) -> any_frame k2 -> k1 <> k2 ->
  frame_equals (St os h) r1 r2 = Ok (St os h, Value false).
Proof. exact frame_equals_types. Qed.
Theorem C75_frame_equals_other : forall os h r1 r2, other_object any_frame os r2 -> frame_equals (St os h) r1 r2 = Ok (St os h, Raise TypeError).
Proof. exact frame_equals_other. Qed.

(** Two threads that share no frames are compared as the lists of their frames are: equal numbers of equal frames in the
    same order.  Memory changes only in the links of the two lists, after which both structures hold those frames. *)
Theorem C75_thread_equals : forall os h r1 r2 k n1 n2 e1 e2 es1 es2 t u,
  py_thread_is os h r1 k n1 e1 es1 t -> py_thread_is os h r2 k n2 e2 es2 u -> disjoint (e_foot e1) (e_foot e2) ->
  k = KCoreThread \/ k = KGdbThread -> thread_in_range t -> thread_in_range u ->
  exists b h', thread_equals (St os h) r1 r2 = Ok (St os h', Value b) /\ (b = true <-> threads_agree t u) /\
    own h' k n1 e1 /\ own h' k n2 e2 /\ same_outside (link_cells e1 es1 ++ link_cells e2 es2) h h' /\ length h' = length h.
Proof. exact thread_equals_ok. Qed.
Theorem C75_thread_equals_self : forall os h r k n e es t, py_thread_is os h r k n e es t -> k = KCoreThread \/ k = KGdbThread -> thread_in_range t ->
  exists h', thread_equals (St os h) r r = Ok (St os h', Value true) /\ own h' k n e /\ same_outside (link_cells e es) h h' /\ length h' = length h.
Proof. exact thread_equals_self. Qed.
Theorem C75_thread_equals_types : forall os h r1 r2 k1 k2 c1 c2 a1 a2, alive os r1 (PyStruct k1 c1 a1) -> alive os r2 (PyStruct k2 c2 a2) -> any_thread k2 -> k1 <> k2 ->
  thread_equals (St os h) r1 r2 = Ok (St os h, Value false).
Proof. exact thread_equals_types. Qed.
Theorem C75_thread_equals_other : forall os h r1 r2, other_object any_thread os r2 -> thread_equals (St os h) r1 r2 = Ok (St os h, Raise TypeError).
Proof. exact thread_equals_other. Qed.
(** Single-threaded stack traces cannot be compared: an assertion fails. *)
Theorem C75_single_equals_refuted : forall os h r1 r2 k n1 n2 e1 e2 es1 es2 t u,
  py_thread_is os h r1 k n1 e1 es1 t -> py_thread_is os h r2 k n2 e2 es2 u -> disjoint (e_foot e1) (e_foot e2) ->
  In k [KPythonStack; KKoopsStack; KRubyStack; KJsStack] -> thread_equals (St os h) r1 r2 = UB.
Proof. exact thread_equals_single. Qed.
(** With a foreign object among the frames the method returns False and leaves an exception behind. *)
Theorem C75_foreign_equals_refuted : forall os h r1 r2 k c1 c2 es a2, foreign os h r1 k c1 es -> alive os r2 (PyStruct k c2 a2) ->
  exists h', thread_equals (St os h) r1 r2 = Ok (St os h', ValueAnd false TypeError).
Proof. exact thread_equals_foreign. Qed.
(** Two threads that share a frame object: linking the second list changes the first, and a thread of one frame equals a
    thread of two. *)
Theorem C75_shared_frames_refuted : exists os h r1 r2 e1 e2 es1 es2 t u st',
  py_thread_is os h r1 KCoreThread None e1 es1 t /\ py_thread_is os h r2 KCoreThread None e2 es2 u /\ thread_in_range t /\ thread_in_range u /\
  ~ threads_agree t u /\ thread_equals (St os h) r1 r2 = Ok (st', Value true).
Proof.
  do 10 eexists. eexists. split; [exact pb_s1|]. split; [exact pb_s2|].
  split; [split; [repeat constructor; discriminate|exact I]|]. split; [split; [repeat constructor; discriminate|exact I]|].
  split; [|vm_compute; reflexivity].
  intros A. inversion A as [|x y l m _ A']. inversion A'.
Qed.
(** Java threads are compared by their names and first frames. *)
Theorem C75_java_equals_refuted : exists os h r1 r2 e1 e2 es1 es2 t u st',
  py_thread_is os h r1 KJavaThread None e1 es1 (TJava t) /\ py_thread_is os h r2 KJavaThread None e2 es2 (TJava u) /\
  length (vt_frames t) <> length (vt_frames u) /\ thread_equals (St os h) r1 r2 = Ok (st', Value true).
Proof. destruct jv_equals as [st' E]. do 10 eexists. exists st'. split; [exact jv_1|]. split; [exact jv_2|]. split; [discriminate|exact E]. Qed.

(** distance is the library's distance between the two lists of frames. *)
Theorem C75_distance : forall os h r1 r2 k n1 n2 e1 e2 es1 es2 t u d type q,
  py_thread_is os h r1 k n1 e1 es1 t -> py_thread_is os h r2 k n2 e2 es2 u -> disjoint (e_foot e1) (e_foot e2) ->
  In (d, type) [(0, JARO_WINKLER); (1, JACCARD); (2, LEVENSHTEIN); (3, DAMERAU_LEVENSHTEIN)]%Z ->
  sr_distance frame_same type (0, sr_thread_frames t) (0, sr_thread_frames u) = Ok q ->
  exists h', thread_distance (St os h) r1 r2 d = Ok (St os h', Value q) /\ own h' k n1 e1 /\ own h' k n2 e2 /\
    same_outside (link_cells e1 es1 ++ link_cells e2 es2) h h' /\ length h' = length h.
Proof.
  intros os h r1 r2 k n1 n2 e1 e2 es1 es2 t u d type q P1 P2 D T E.
  assert (R : (0 <= d < 4)%Z /\ distance_of d = type) by (cbn in T; intuition (try match goal with H : (_, _) = _ |- _ => injection H as <- <- end; (lia || reflexivity || contradiction))).
  destruct R as [R <-]. exact (distance_ok os h r1 r2 k n1 n2 e1 e2 es1 es2 t u d q P1 P2 D R E).
Qed.
Theorem C75_distance_self : forall os h r k n e es t d type q, py_thread_is os h r k n e es t ->
  In (d, type) [(0, JARO_WINKLER); (1, JACCARD); (2, LEVENSHTEIN); (3, DAMERAU_LEVENSHTEIN)]%Z ->
  sr_distance frame_same type (0, sr_thread_frames t) (0, sr_thread_frames t) = Ok q ->
  exists h', thread_distance (St os h) r r d = Ok (St os h', Value q) /\ own h' k n e.
Proof.
  intros os h r k n e es t d type q P T E.
  assert (R : (0 <= d < 4)%Z /\ distance_of d = type) by (cbn in T; intuition (try match goal with H : (_, _) = _ |- _ => injection H as <- <- end; (lia || reflexivity || contradiction))).
  destruct R as [R <-]. exact (distance_self os h r k n e es t d q P R E).
Qed.
(** Threads of two types, other numbers, other objects and foreign frames raise exceptions. *)
Theorem C75_distance_types : forall os h r1 r2 k1 k2 n1 n2 e1 e2 es1 es2 t u d,
  py_thread_is os h r1 k1 n1 e1 es1 t -> py_thread_is os h r2 k2 n2 e2 es2 u -> disjoint (e_foot e1) (e_foot e2) ->
  k1 <> k2 -> (-2147483648 <= d <= 2147483647)%Z -> exists h', thread_distance (St os h) r1 r2 d = Ok (St os h', Raise TypeError).
Proof. exact distance_types. Qed.
Theorem C75_distance_number : forall os h r1 r2 k n1 n2 e1 e2 es1 es2 t u d,
  py_thread_is os h r1 k n1 e1 es1 t -> py_thread_is os h r2 k n2 e2 es2 u -> disjoint (e_foot e1) (e_foot e2) ->
  ~ (0 <= d < 4)%Z -> exists h' e, thread_distance (St os h) r1 r2 d = Ok (St os h', Raise e) /\ (e = ValueError \/ e = OverflowError).
Proof. exact distance_number. Qed.
Theorem C75_distance_other : forall os h r1 r2 d, other_object any_thread os r2 -> thread_distance (St os h) r1 r2 d = Ok (St os h, Raise TypeError).
Proof. exact distance_other. Qed.
Theorem C75_distance_foreign : forall os h r1 r2 k c es d k2 c2 a2, foreign os h r1 k c es -> alive os r2 (PyStruct k2 c2 a2) -> any_thread k2 ->
  (-2147483648 <= d <= 2147483647)%Z -> exists h', thread_distance (St os h) r1 r2 d = Ok (St os h', Raise TypeError).
Proof. exact distance_foreign. Qed.

(** get_duphash and get_bthash are the library's hashes of the thread and stack trace the lists show; a thread that has no
    hash raises an exception. *)
Theorem C75_duphash : forall sha1 os h r k n e es t frames flags prefix x, py_thread_is os h r k n e es t ->
  (-2147483648 <= frames <= 2147483647)%Z -> (-2147483648 <= flags <= 2147483647)%Z ->
  sr_thread_get_duphash sha1 t frames prefix (Z.to_N (flags mod 2 ^ 32)) = Ok x ->
  exists h' a, thread_get_duphash sha1 (St os h) r frames flags prefix = Ok (St os h', a) /\ match x with Some s => gives_text a s | None => a = Raise RuntimeError end /\
    own h' k n e /\ same_outside (link_cells e es) h h' /\ length h' = length h.
Proof. exact duphash_ok. Qed.
Theorem C75_duphash_foreign : forall sha1 os h r k c es frames flags prefix, foreign os h r k c es ->
  (-2147483648 <= frames <= 2147483647)%Z -> (-2147483648 <= flags <= 2147483647)%Z ->
  exists h', thread_get_duphash sha1 (St os h) r frames flags prefix = Ok (St os h', Raise TypeError).
Proof. exact duphash_foreign. Qed.
Theorem C75_duphash_overflow : forall sha1 os h r frames flags prefix, ~ (-2147483648 <= frames <= 2147483647)%Z \/ ~ (-2147483648 <= flags <= 2147483647)%Z ->
  thread_get_duphash sha1 (St os h) r frames flags prefix = Ok (St os h, Raise OverflowError).
Proof. exact duphash_overflow. Qed.
Theorem C75_single_bthash : forall sha1 os h r k n e es t s flags, py_thread_is os h r k n e es t -> is_stack k (e_val e) s -> (-2147483648 <= flags <= 2147483647)%Z ->
  exists h' a, single_get_bthash sha1 (St os h) r flags = Ok (St os h', a) /\ gives_text a (sr_stacktrace_get_bthash sha1 s (Z.to_N (flags mod 2 ^ 32))) /\
    own h' k n e /\ same_outside (link_cells e es) h h' /\ length h' = length h.
Proof. exact single_bthash_ok. Qed.
Theorem C75_multi_bthash : forall sha1 os h r k n e ts s flags, py_stack_is os h r k n e ts s -> (-2147483648 <= flags <= 2147483647)%Z ->
  exists h' a, multi_get_bthash sha1 (St os h) r flags = Ok (St os h', a) /\ gives_text a (sr_stacktrace_get_bthash sha1 s (Z.to_N (flags mod 2 ^ 32))) /\
    own h' k n e /\ same_outside (e_addr e :: threads_cells ts) h h' /\ length h' = length h.
Proof. exact multi_bthash_ok. Qed.
Theorem C75_bthash_foreign : forall sha1 os h r k c es flags, foreign os h r k c es -> (-2147483648 <= flags <= 2147483647)%Z ->
  exists h', single_get_bthash sha1 (St os h) r flags = Ok (St os h', Raise TypeError).
Proof. exact bthash_foreign. Qed.
(** get_bthash of a gdb stack trace does not look at the list of libraries: it hashes those it had, and once another list
    has been assigned it reads freed memory. *)
Theorem C75_gdb_bthash_stale_refuted : exists os h r n e ts items libs s t st', py_gdb_is os h r n e ts items libs s /\
  multi_get_bthash (fun x => x) (St os h) r 2 = Ok (st', Value t) /\ ~ utf8 t (sr_stacktrace_get_bthash (fun x => x) (SGdb s) 2).
Proof. destruct gl_ignored as (t & st' & E & N). do 9 eexists. exists t, st'. split; [exact (gl_case None)|]. split; assumption. Qed.
Theorem C75_gdb_bthash_refuted : forall sha1, exists os h n e ts items libs s empty st1, py_gdb_is os h 0 n e ts items libs s /\ alive os empty (PyList []) /\
  set_attr (St os h) 0 1 empty = Ok st1 /\ multi_get_bthash sha1 st1 0 0 = UB.
Proof.
  intros sha1. destruct (gl_stale sha1) as (st1 & E & _ & _ & U). do 8 eexists. exists 5, st1. split; [exact (gl_case (Some 1))|]. split; [exists 0; reflexivity|]. split; assumption.
Qed.

(** to_short_text. *)
Theorem C75_single_short_text : forall os h r k n e es t s max out, py_thread_is os h r k n e es t -> is_stack k (e_val e) s ->
  In k [KPythonStack; KKoopsStack; KRubyStack; KJsStack] -> (-2147483648 <= max <= 2147483647)%Z -> sr_stacktrace_to_short_text s max = Ok (Some out) ->
  exists h' a, single_to_short_text (St os h) r max = Ok (St os h', a) /\ gives_text a out /\
    own h' k n e /\ same_outside (link_cells e es) h h' /\ length h' = length h.
Proof. exact single_short_ok. Qed.
(** A stack trace without a crash thread gives NULL and no exception. *)
Theorem C75_multi_short_text : forall os h r k n e ts s max x, py_stack_is os h r k n e ts s -> crash_pointer h e ts s -> (-2147483648 <= max <= 2147483647)%Z ->
  sr_stacktrace_to_short_text s max = Ok x ->
  exists h' a, multi_to_short_text (St os h) r max = Ok (St os h', a) /\ match x with Some out => gives_text a out | None => a = NullAlone end /\
    own h' k n e /\ same_outside (e_addr e :: threads_cells ts) h h' /\ length h' = length h.
Proof. exact multi_short_ok. Qed.
(** Once a core stack trace that knows its crash thread has been given another list of threads, it reads freed memory. *)
Theorem C75_crash_thread_refuted : exists os h e ts s l st1, py_stack_is os h 0 KCoreStack None e ts s /\ crash_pointer h e ts s /\ (exists items, alive os l (PyList items)) /\
  set_attr (St os h) 0 0 l = Ok st1 /\ multi_to_short_text st1 0 0 = UB.
Proof.
  destruct cr_dangling as (st1 & E & _ & _ & U). destruct cr_case as [C P]. do 5 eexists. exists 5, st1. split; [exact C|]. split; [exact P|].
  split; [exists [6]; exists 0; reflexivity|]. split; assumption.
Qed.

(** gdb stack traces: the two qualities; the first library of the list that contains an address, as a new reference. *)
Theorem C75_quality : forall os h r n e ts items libs s, py_gdb_is os h r n e ts items libs s ->
  exists h', quality_simple (St os h) r = Ok (St os h', Value (sr_gdb_stacktrace_quality_simple s)) /\ own h' KGdbStack n e /\
    same_outside (e_addr e :: threads_cells ts ++ map e_addr libs) h h' /\ length h' = length h.
Proof. intros os h r n e ts items libs s. exact (quality_ok _ os h r n e ts items libs s). Qed.
Theorem C75_quality_complex : forall os h r n e ts items libs s, py_gdb_is os h r n e ts items libs s ->
  exists h', quality_complex (St os h) r = Ok (St os h', Value (sr_gdb_stacktrace_quality_complex s)) /\ own h' KGdbStack n e /\
    same_outside (e_addr e :: threads_cells ts ++ map e_addr libs) h h' /\ length h' = length h.
Proof. intros os h r n e ts items libs s. exact (quality_ok _ os h r n e ts items libs s). Qed.
Theorem C75_find_address : forall os h r n e ts items libs s address, py_gdb_is os h r n e ts items libs s -> (0 <= address < 2 ^ 63)%Z ->
  exists h', own h' KGdbStack n e /\ same_outside (e_addr e :: threads_cells ts ++ map e_addr libs) h h' /\ length h' = length h /\
   ((find_address (St os h) r address = Ok (St os h', Value None) /\ Forall (fun l => ~ contains l address) (gs_libs s)) \/
    exists i item l st', find_address (St os h) r address = Ok (st', Value (Some item)) /\ incref (St os h') item = Ok st' /\
      nth_error items i = Some item /\ nth_error (gs_libs s) i = Some l /\ contains l address /\ Forall (fun l => ~ contains l address) (firstn i (gs_libs s))).
Proof. exact find_address_ok. Qed.
Theorem C75_find_address_overflow : forall os h r n e ts items libs s address, py_gdb_is os h r n e ts items libs s -> ~ (- 2 ^ 63 <= address < 2 ^ 63)%Z ->
  exists h', find_address (St os h) r address = Ok (St os h', Raise OverflowError).
Proof. exact find_address_overflow. Qed.

(** ** Concrete cases *)
Example C75_frame_case : py_frame (pb_objs [2] [5]) pb_heap 2 KCoreFrame None pb_f1 (FCore fr1) /\ py_frame (pb_objs [2] [5]) pb_heap 5 KCoreFrame None pb_f2 (FCore fr2) /\
  printable (FCore fr1) /\ in_range (FCore fr1) /\ in_range (FCore fr2) /\ frames_agree (FCore fr1) (FCore fr2) /\ fr1 <> fr2 /\ other_object any_frame (pb_objs [2] [5]) 6.
Proof.
  split; [exact pb_frame1|]. split; [exact pb_frame2|]. split; [left; discriminate|]. split; [split; [discriminate|reflexivity]|]. split; [split; [discriminate|reflexivity]|]. split; [repeat split|]. split; [discriminate|].
  exists PyOther. split; [exists 0; reflexivity|discriminate].
Qed.
Example C75_thread_case : py_thread_is (pb_objs [2] [5]) pb_heap 0 KCoreThread None (pb_t 0 [pb_f1]) [pb_f1] (TCore (mk_core_thread [fr1])) /\
  py_thread_is (pb_objs [2] [5]) pb_heap 3 KCoreThread None (pb_t 4 [pb_f2]) [pb_f2] (TCore (mk_core_thread [fr2])) /\
  disjoint (e_foot (pb_t 0 [pb_f1])) (e_foot (pb_t 4 [pb_f2])) /\ thread_in_range (TCore (mk_core_thread [fr1])) /\ thread_in_range (TCore (mk_core_thread [fr2])) /\
  threads_agree (TCore (mk_core_thread [fr1])) (TCore (mk_core_thread [fr2])) /\
  exists q, sr_distance frame_same LEVENSHTEIN (0, sr_thread_frames (TCore (mk_core_thread [fr1]))) (0, sr_thread_frames (TCore (mk_core_thread [fr2]))) = Ok q.
Proof.
  split; [exact pb_t1|]. split; [exact pb_t2|]. split; [exact pb_apart|]. split; [split; [repeat constructor; discriminate|exact I]|]. split; [split; [repeat constructor; discriminate|exact I]|].
  split; [repeat constructor|]. eexists. vm_compute. reflexivity.
Qed.
Example C75_foreign_case : foreign (pb_objs [2; 6] [5]) pb_heap 0 KCoreThread 0 [pb_f1].
Proof. exact pb_foreign. Qed.
Example C75_single_case : py_thread_is ex_objs ex_heap 0 KPythonStack None (ex_e 0) [] (TPython (mk_python_stacktrace (Some (L "KeyError")) [])) /\
  py_thread_is ex_objs ex_heap 2 KPythonStack None (ex_e 2) [] (TPython (mk_python_stacktrace (Some (L "KeyError")) [])) /\ disjoint (e_foot (ex_e 0)) (e_foot (ex_e 2)) /\
  is_stack KPythonStack (e_val (ex_e 0)) (SPython (mk_python_stacktrace (Some (L "KeyError")) [])) /\
  sr_stacktrace_to_short_text (SPython (mk_python_stacktrace (Some (L "KeyError")) [])) 0 = Ok (Some []) /\ any_thread KPythonStack.
Proof.
  split; [apply (ex_thread 0 0 1); reflexivity|]. split; [apply (ex_thread 2 2 3); reflexivity|]. split; [intros x; cbn; intuition (subst; discriminate)|].
  split; [split; [reflexivity|]; split; [exists 0; split; reflexivity|exists []; split; [reflexivity|constructor]]|]. split; [reflexivity|cbn; tauto].
Qed.
Example C75_stack_case : py_stack_is cr_objs cr_heap 0 KCoreStack None cr_e [PT 2 3 [4] cr_t [cr_f]] (SCore cr_s) /\ crash_pointer cr_heap cr_e [PT 2 3 [4] cr_t [cr_f]] (SCore cr_s) /\
  exists out, sr_stacktrace_to_short_text (SCore cr_s) 5 = Ok (Some out) /\ infix (L "f") out.
Proof.
  split; [apply cr_case|]. split; [apply cr_case|]. eexists. split; [vm_compute; reflexivity|]. exists (L "#1  "). eexists. reflexivity.
Qed.
Example C75_gdb_case : py_gdb_is gl_objs (gl_heap None) 0 None gl_e [] [4] [gl_lib] gl_s /\ contains (mk_gdb_sharedlib 4096 8191 0 (Some (L "libc.so.6"))) 5000.
Proof. split; [apply gl_case|split; discriminate]. Qed.
Print Assumptions C75_frame_short_string.
Print Assumptions C75_gdb_short_string_refuted.
Print Assumptions C75_frame_equals.
Print Assumptions C75_frame_equals_types.
Print Assumptions C75_frame_equals_other.
Print Assumptions C75_thread_equals.
Print Assumptions C75_thread_equals_self.
Print Assumptions C75_thread_equals_types.
Print Assumptions C75_thread_equals_other.
Print Assumptions C75_single_equals_refuted.
Print Assumptions C75_foreign_equals_refuted.
Print Assumptions C75_shared_frames_refuted.
Print Assumptions C75_java_equals_refuted.
Print Assumptions C75_distance.
Print Assumptions C75_distance_self.
Print Assumptions C75_distance_types.
Print Assumptions C75_distance_number.
Print Assumptions C75_distance_other.
Print Assumptions C75_distance_foreign.
Print Assumptions C75_duphash.
Print Assumptions C75_duphash_foreign.
Print Assumptions C75_duphash_overflow.
Print Assumptions C75_single_bthash.
Print Assumptions C75_multi_bthash.
Print Assumptions C75_bthash_foreign.
Print Assumptions C75_gdb_bthash_stale_refuted.
Print Assumptions C75_gdb_bthash_refuted.
Print Assumptions C75_single_short_text.
Print Assumptions C75_multi_short_text.
Print Assumptions C75_crash_thread_refuted.
Print Assumptions C75_quality.
Print Assumptions C75_quality_complex.
Print Assumptions C75_find_address.
Print Assumptions C75_find_address_overflow.
