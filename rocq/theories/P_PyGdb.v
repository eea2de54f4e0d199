(** * Property C80: the methods of a gdb stack trace in Python that rebuild its list of threads. *)
From Verif Require Import Base Types NormModel NormSpec TextModel HeapModel HeapSpec HeapListModel PyModel PySpec PyAttrModel PyAttrSpec PyBaseModel PyBaseSpec PyMethSpec
  PyGdbModel PyGdbSpec PyGdbProofs6 PyGdbProofs7 PyGdbProofs8.
Open Scope nat_scope.

(** to_short_text returns the text of C54 for whatever threads, frames and libraries the Python lists have.  The object gets a
    new list of new threads that say the same.  Thread and frame objects that somebody else refers to live on with what they
    had; those nobody refers to go, with their memory; nothing else changes but links. *)
Theorem C80_short_text : forall os h r lt ll at_ m ml n e ts items libs s max out, py_gdb os h r lt ll at_ m ml n e ts items libs s ->
  (-2147483648 <= max <= 2147483647)%Z -> sr_gdb_stacktrace_to_short_text s max = Ok (Some out) ->
  exists os' h' a e' lt' ts', gdb_to_short_text (St os h) r max = Ok (St os' h', a) /\ gives_text a out /\
    py_gdb os' h' r lt' ll at_ m 1 n e' ts' items libs s /\ e_addr e' = e_addr e /\
    rebuilt os os' h h' r lt ml ts e' lt' ts' (e_addr e :: threads_cells ts ++ map e_addr libs).
Proof. intros os h r lt ll at_ m ml n e ts items libs s max out P B E. exact (short_text_ok _ _ _ _ _ _ _ _ _ _ _ _ _ _ _ _ P B E). Qed.
(** Without a crash thread it raises LookupError, and with a number that is no C int OverflowError; no object changes. *)
Theorem C80_short_text_none : forall os h r lt ll at_ m ml n e ts items libs s max, py_gdb os h r lt ll at_ m ml n e ts items libs s ->
  (-2147483648 <= max <= 2147483647)%Z -> sr_gdb_stacktrace_to_short_text s max = Ok None ->
  exists h', gdb_to_short_text (St os h) r max = Ok (St os h', Raise LookupError) /\ own h' KGdbStack n e /\
    same_outside (e_addr e :: threads_cells ts ++ map e_addr libs) h h' /\ length h' = length h.
Proof. intros os h r lt ll at_ m ml n e ts items libs s max P B E. exact (short_text_ok _ _ _ _ _ _ _ _ _ _ _ _ _ _ _ _ P B E). Qed.
Theorem C80_short_text_range : forall os h r lt ll at_ m ml n e ts items libs s max, py_gdb os h r lt ll at_ m ml n e ts items libs s ->
  ~ (-2147483648 <= max <= 2147483647)%Z ->
  exists h', gdb_to_short_text (St os h) r max = Ok (St os h', Raise OverflowError) /\ own h' KGdbStack n e /\
    same_outside (e_addr e :: threads_cells ts ++ map e_addr libs) h h' /\ length h' = length h.
Proof. exact short_text_range. Qed.

(** set_libnames: every frame whose address is in a library gets the base name of the library, in the new threads and, because
    the old structures were changed before they were copied, in old threads that somebody else refers to ([us]).  The names
    they had are freed. *)
Theorem C80_set_libnames : forall os h r lt ll at_ m ml n e ts items libs s, py_gdb os h r lt ll at_ m ml n e ts items libs s -> ts <> [] ->
  Forall (fun l => gl_soname l <> None) (gs_libs s) ->
  exists os' h' e' lt' ts' s' us, py_set_libnames (St os h) r = Ok (St os' h', Value tt) /\ named_stack s s' /\
    py_gdb os' h' r lt' ll at_ m 1 n e' ts' items libs s' /\ e_addr e' = e_addr e /\
    Forall2 same_places ts us /\ Forall2 (is_thread KGdbThread) (map e_val (map pt_entry us)) (map TGdb (gs_threads s')) /\
    rebuilt os os' h h' r lt ml us e' lt' ts' (e_addr e :: foot (map pt_entry ts) ++ map e_addr libs) /\
    (forall x, In x (foot (map pt_entry ts)) -> ~ In x (foot (map pt_entry us)) -> freed h' x).
Proof. exact set_libnames_py. Qed.
(** It crashes if there are no threads, or if a library that contains an address has no name. *)
Theorem C80_set_libnames_refuted : forall os h r lt ll at_ m ml n e items libs s, py_gdb os h r lt ll at_ m ml n e [] items libs s ->
  py_set_libnames (St os h) r = UB.
Proof. exact set_libnames_no_threads. Qed.
Theorem C80_unnamed_library_refuted : exists os h r lt ll at_ m ml n e ts items libs s l, py_gdb os h r lt ll at_ m ml n e ts items libs s /\ ts <> [] /\
  gs_libs s = [l] /\ gl_soname l = None /\ py_set_libnames (St os h) r = UB.
Proof. do 15 eexists. split; [exact su_case|]. split; [discriminate|]. split; [reflexivity|]. split; [reflexivity|exact su_crash]. Qed.

(** normalize: if the library function turns a copy of the stack trace into [s'], the object becomes [s'], with a new list of
    new threads; what there was before is treated as by the other methods. *)
Theorem C80_normalize : forall normalize os h r lt ll at_ m ml n e ts items libs s s', py_gdb os h r lt ll at_ m ml n e ts items libs s ->
  turns normalize (e_val e) s' -> gs_libs s' = gs_libs s ->
  exists os' h' e' lt' ts', gdb_normalize normalize (St os h) r = Ok (St os' h', Value tt) /\ py_gdb os' h' r lt' ll at_ m 1 n e' ts' items libs s' /\
    e_addr e' = e_addr e /\ rebuilt os os' h h' r lt ml ts e' lt' ts' (e_addr e :: threads_cells ts ++ map e_addr libs) /\
    (forall x, In x (e_foot e') -> In x (e_foot e) \/ length h <= x).
Proof. exact normalize_ok. Qed.
(** The crash frame the stack trace had is lost: nothing refers to it, and it is not freed. *)
Theorem C80_normalize_refuted : exists normalize os h r lt ll at_ m ml n e ts items libs s os' h' x,
  py_gdb os h r lt ll at_ m ml n e ts items libs s /\ turns normalize (e_val e) s /\ gdb_normalize normalize (St os h) r = Ok (St os' h', Value tt) /\
  In x (e_foot e) /\ x < length h /\ nth_error h' x = nth_error h x /\ ~ freed h' x /\ Forall (fun c => ~ refers c x) h' /\
  Forall (fun o => match o with Some (_, PyStruct _ a _) => a <> x | _ => True end) os'.
Proof.
  destruct sg_leak as (os' & h' & E & Hx & F & G). exists nothing, sg_objs, sg_heap, 0. do 11 eexists. exists os', h', 10. split; [exact sg_case|]. split; [exact nothing_turns|]. split; [exact E|].
  split; [cbn; tauto|]. split; [cbn; lia|]. split; [exact Hx|]. split; [unfold freed; rewrite Hx; discriminate|]. split; assumption.
Qed.

(** The hypotheses are met: two threads, a library that contains the addresses of both frames, a crash frame. *)
Example C80_case : py_gdb sg_objs sg_heap 0 1 2 [Some 3] 1 1 None sg_e [sg_t1; sg_t2] [6] [sg_lib] sg_s. Proof. exact sg_case. Qed.
Example C80_sonames : Forall (fun l => gl_soname l <> None) (gs_libs sg_s). Proof. exact sg_sonames. Qed.
Example C80_text : exists out, sr_gdb_stacktrace_to_short_text sg_s 5 = Ok (Some out). Proof. exact sg_text. Qed.
Example C80_turns : turns nothing (e_val sg_e) sg_s. Proof. exact nothing_turns. Qed.
(** The first thread object is gone with its frame; the second, which has another reference, has the new name. *)
Example C80_named : exists os' h', py_set_libnames (St sg_objs sg_heap) 0 = Ok (St os' h', Value tt) /\
  nth_error os' 4 = Some None /\ object os' 5 1 (PyStruct KGdbThread 2 [Some 8]) /\ freed h' 3 /\ freed h' 7 /\
  exists x, nth_error h' 5 = Some (CObj KGdbFrame [0; 1; 0; 5000]%Z [Some 6; None; None; Some x] [] None [] None) /\ nth_error h' x = Some (CStr (L "libm-2.so")).
Proof. exact sg_named. Qed.

Print Assumptions C80_short_text.
Print Assumptions C80_short_text_none.
Print Assumptions C80_short_text_range.
Print Assumptions C80_set_libnames.
Print Assumptions C80_set_libnames_refuted.
Print Assumptions C80_unnamed_library_refuted.
Print Assumptions C80_normalize.
Print Assumptions C80_normalize_refuted.
