(** * C20, C52, C57: editing, copying and freeing linked structures in memory *)
From Verif Require Import Base HeapModel HeapSpec HeapProofs HeapProofs2 HeapProofs3.

(** Removing a frame that is in the thread: exactly that frame goes, its memory and no other is
    released, everything outside the thread is untouched. *)
Theorem C20_remove_frame : forall h t rest fk l1 e l2, thread_is h t rest fk (l1 ++ e :: l2) ->
  exists h', sr_thread_remove_frame h t (e_addr e) = Ok (h', true) /\ thread_remove_frame h t (e_addr e) = Ok (h', true) /\
    thread_is h' t rest fk (l1 ++ l2) /\
    (forall x, In x (e_foot e) -> freed h' x) /\ same_outside (t :: foot (l1 ++ e :: l2)) h h' /\ length h' = length h.
Proof. exact sr_thread_remove_frame_ok. Qed.
(** Removing a frame that is not there is reported and changes nothing. *)
Theorem C20_remove_absent : forall h t rest fk l f, thread_is h t rest fk l -> kind_at h f = Ok fk ->
  ~ In f (map e_addr l) -> sr_thread_remove_frame h t f = Ok (h, false) /\ thread_remove_frame h t f = Ok (h, false).
Proof. exact sr_thread_remove_absent_ok. Qed.
Theorem C20_remove_above : forall h t rest fk l1 e l2, thread_is h t rest fk (l1 ++ e :: l2) ->
  exists h', sr_thread_remove_frames_above h t (e_addr e) = Ok (h', true) /\
    thread_remove_frames_above h t (e_addr e) = Ok (h', true) /\ thread_is h' t rest fk (e :: l2) /\
    (forall x, In x (foot l1) -> freed h' x) /\ same_outside (t :: foot l1) h h' /\ length h' = length h.
Proof. exact sr_thread_above_ok. Qed.
Theorem C20_remove_above_absent : forall h t rest fk l f, thread_is h t rest fk l -> kind_at h f = Ok fk ->
  ~ In f (map e_addr l) -> sr_thread_remove_frames_above h t f = Ok (h, false) /\ thread_remove_frames_above h t f = Ok (h, false).
Proof. exact sr_thread_above_absent_ok. Qed.
Theorem C20_remove_below : forall h t rest fk l n, thread_is h t rest fk l -> (0 <= n)%Z ->
  exists h', remove_frames_below_n h t n = Ok h' /\ thread_is h' t rest fk (firstn (Z.to_nat n) l) /\
    (forall x, In x (foot (skipn (Z.to_nat n) l)) -> freed h' x) /\
    same_outside (t :: foot l) h h' /\ length h' = length h.
Proof. exact remove_frames_below_n_ok. Qed.
Theorem C20_frame_count : forall h t rest fk l, thread_is h t rest fk l -> thread_frame_count h t = Ok (length l).
Proof. exact thread_frame_count_ok. Qed.
(** Limiting a whole gdb stacktrace cuts each thread to its first [depth] frames and changes
    neither the crash frame nor the libraries. *)
Theorem C20_limit_depth : forall h n e depth, own h KGdbStack n e -> separate (e_foot e) -> (0 < depth)%Z ->
  exists h' e' scal strs arr crash threads threads' libs,
    limit_frame_depth h (e_addr e) depth = Ok h' /\ own h' KGdbStack n e' /\ e_addr e' = e_addr e /\
    e_val e = Val scal strs arr [crash; threads; libs] /\ e_val e' = Val scal strs arr [crash; threads'; libs] /\
    Forall2 (truncated (Z.to_nat depth)) threads threads' /\
    separate (e_foot e') /\ (forall x, In x (e_foot e) -> ~ In x (e_foot e') -> freed h' x) /\
    same_outside (e_foot e) h h'.
Proof. exact limit_frame_depth_ok. Qed.

(** A copy (of one structure or of the whole list that starts there) has the same values, lies
    entirely in memory that did not exist before, and allocates nothing else; nothing old changes. *)
Theorem C52_deep_copy : forall k h e n l (sib : bool),
  own h k n e -> own_list h k n l -> separate (e_foot e ++ foot l) ->
  exists h' r l', sr_dup k h (e_addr e) sib = Ok (h', r) /\
    own_list h' k (Some r) l' /\
    map e_val l' = (if sib then map e_val (e :: l) else [e_val e]) /\
    separate (foot l') /\
    (forall x, In x (foot l') <-> length h <= x < length h') /\
    length h <= length h' /\
    (forall x, x < length h -> nth_error h' x = nth_error h x).
Proof. exact sr_dup_ok. Qed.
(** Whatever is later done to the memory of the original is invisible in the copy, and the other
    way round. *)
Theorem C52_independent : forall k h e n l (sib : bool),
  own h k n e -> own_list h k n l -> separate (e_foot e ++ foot l) ->
  exists h' r l', sr_dup k h (e_addr e) sib = Ok (h', r) /\ own_list h' k (Some r) l' /\ own h' k n e /\ own_list h' k n l /\
    disjoint (foot l') (e_foot e ++ foot l) /\
    forall h'', (same_outside (e_foot e ++ foot l) h' h'' -> own_list h'' k (Some r) l') /\
                (same_outside (foot l') h' h'' -> own h'' k n e /\ own_list h'' k n l).
Proof. exact dup_independent. Qed.

(** The copied and freed members are all the members the structures have. *)
Theorem C52_all_members : forall k, length (str_ops k) = length (string_members k) /\
  kid_ops k = map (fun m => (snd (fst m), snd m)) (list_members k).
Proof. exact all_members. Qed.

(** Freeing releases every cell of the structure, once, and touches nothing else. *)
Theorem C57_free : forall k h n e, own h k n e -> separate (e_foot e) ->
  exists h', sr_free k h (e_addr e) = Ok h' /\ length h' = length h /\ same_outside (e_foot e) h h' /\
    (forall x, In x (e_foot e) -> freed h' x).
Proof. exact sr_free_ok. Qed.
(** Copying and freeing the copy leaves no memory behind and the original intact. *)
Theorem C57_dup_free_no_leak : forall k h e n, own h k n e -> separate (e_foot e) ->
  exists h' r h'', sr_dup k h (e_addr e) false = Ok (h', r) /\ sr_free k h' r = Ok h'' /\
    own h'' k n e /\ (forall x, x < length h -> nth_error h'' x = nth_error h x) /\
    length h'' = length h' /\ (forall x, length h <= x < length h'' -> freed h'' x).
Proof. exact dup_then_free. Qed.

(** ** Concrete cases *)
Definition gframe (name : addr) (next : option addr) : cell :=
  CObj KGdbFrame [0; 0; 0; 0]%Z [Some name; None; None; None] [] None [] next.
(* a gdb stacktrace with a crash frame, two threads (two frames and one) and a library *)
Definition ex_heap : heap :=
  [ CObj KGdbStack [7]%Z [] [Some 1; Some 3; Some 11] None [] None;
    gframe 2 None; CStr (L "abort");
    CObj KGdbThread [1; 100]%Z [] [Some 4] None [] (Some 8);
    gframe 5 (Some 6); CStr (L "abort");
    gframe 7 None; CStr (L "main");
    CObj KGdbThread [2; 101]%Z [] [Some 9] None [] None;
    gframe 10 None; CStr (L "poll");
    CObj KGdbLib [0; 4096; 1]%Z [Some 12] [] None [] None; CStr (L "/lib/libc.so") ].
Definition gval (s : str) : value := Val [0; 0; 0; 0]%Z [Some s; None; None; None] None [].
Definition e4 : entry := (4, gval (L "abort"), [4; 5]).
Definition e6 : entry := (6, gval (L "main"), [6; 7]).
Definition e9 : entry := (9, gval (L "poll"), [9; 10]).
Definition e1 : entry := (1, gval (L "abort"), [1; 2]).
Lemma gown : forall a b n s, nth_error ex_heap a = Some (gframe b n) -> nth_error ex_heap b = Some (CStr s) ->
  own ex_heap KGdbFrame n (a, gval s, [a; b]).
Proof.
  intros a b n s Ha Hb.
  apply (own_obj ex_heap KGdbFrame a [0; 0; 0; 0]%Z [Some b; None; None; None] [Some s; None; None; None] [b] [] [] [] None None [] []);
    [exact Ha|reflexivity|repeat constructor; exact Hb|constructor|constructor].
Qed.
Lemma own_e4 : own ex_heap KGdbFrame (Some 6) e4. Proof. now apply gown. Qed.
Lemma own_e6 : own ex_heap KGdbFrame None e6. Proof. now apply gown. Qed.
Lemma own_e9 : own ex_heap KGdbFrame None e9. Proof. now apply gown. Qed.
Lemma own_e1 : own ex_heap KGdbFrame None e1. Proof. now apply gown. Qed.
Definition rest3 : option addr -> cell := fun p => CObj KGdbThread [1; 100]%Z [] [p] None [] (Some 8).
Ltac nodup := unfold separate; repeat (constructor; [cbn; intuition discriminate|]); constructor.
Example thread_case : thread_is ex_heap 3 rest3 KGdbFrame ([e4] ++ e6 :: []).
Proof.
  exists (Some 4), KGdbThread, [1; 100]%Z, [], [], None, [], (Some 8).
  split; [reflexivity|]. split; [reflexivity|]. split; [reflexivity|]. split.
  - apply (ol_cons _ _ (Some 6) e4); [apply own_e4|]. apply (ol_cons _ _ None e6); [apply own_e6|constructor].
  - nodup.
Qed.
Example remove_case : exists h', sr_thread_remove_frame ex_heap 3 6 = Ok (h', true) /\ thread_is h' 3 rest3 KGdbFrame [e4].
Proof. destruct (C20_remove_frame _ _ _ _ _ _ _ thread_case) as (h' & E & _ & T & _). exists h'. split; [exact E|exact T]. Qed.
Example absent_case : sr_thread_remove_frame ex_heap 3 9 = Ok (ex_heap, false).
Proof. refine (proj1 (C20_remove_absent _ _ _ _ _ 9 thread_case eq_refl _)). cbn. intuition discriminate. Qed.
Example count_case : thread_frame_count ex_heap 3 = Ok 2.
Proof. exact (C20_frame_count _ _ _ _ _ thread_case). Qed.
Definition ethread3 : entry := (3, Val [1; 100]%Z [] None [[gval (L "abort"); gval (L "main")]], [3; 4; 5; 6; 7]).
Definition ethread8 : entry := (8, Val [2; 101]%Z [] None [[gval (L "poll")]], [8; 9; 10]).
Definition elib : entry := (11, Val [0; 4096; 1]%Z [Some (L "/lib/libc.so")] None [], [11; 12]).
Definition estack : entry :=
  (0, Val [7]%Z [] None [[gval (L "abort")]; map e_val [ethread3; ethread8]; map e_val [elib]],
   [0; 1; 2; 3; 4; 5; 6; 7; 8; 9; 10; 11; 12]).
Example stack_case : own ex_heap KGdbStack None estack /\ separate (e_foot estack).
Proof.
  split; [|nodup].
  apply (own_obj ex_heap KGdbStack 0 [7]%Z [] [] [] [Some 1; Some 3; Some 11]
           [[gval (L "abort")]; map e_val [ethread3; ethread8]; map e_val [elib]]
           [1; 2; 3; 4; 5; 6; 7; 8; 9; 10; 11; 12] None None [] []); [reflexivity|reflexivity|constructor|constructor|].
  apply (ok_cons ex_heap KGdbFrame false _ (Some 1) _ [e1] _ [3; 4; 5; 6; 7; 8; 9; 10; 11; 12]).
  { apply (ol_cons _ _ None e1); [apply own_e1|constructor]. }
  { cbn. lia. }
  apply (ok_cons ex_heap KGdbThread true _ (Some 3) _ [ethread3; ethread8] _ [11; 12]).
  { apply (ol_cons _ _ (Some 8) ethread3).
    - apply (own_obj ex_heap KGdbThread 3 _ [] [] [] [Some 4] [map e_val [e4; e6]] [4; 5; 6; 7] None None [] []);
        [reflexivity|reflexivity|constructor|constructor|].
      apply (ok_cons ex_heap KGdbFrame true [] (Some 4) [] [e4; e6] [] []); [|discriminate|constructor].
      apply (ol_cons _ _ (Some 6) e4); [apply own_e4|]. apply (ol_cons _ _ None e6); [apply own_e6|constructor].
    - apply (ol_cons _ _ None ethread8); [|constructor].
      apply (own_obj ex_heap KGdbThread 8 _ [] [] [] [Some 9] [map e_val [e9]] [9; 10] None None [] []);
        [reflexivity|reflexivity|constructor|constructor|].
      apply (ok_cons ex_heap KGdbFrame true [] (Some 9) [] [e9] [] []); [|discriminate|constructor].
      apply (ol_cons _ _ None e9); [apply own_e9|constructor]. }
  { discriminate. }
  apply (ok_cons ex_heap KGdbLib true [] (Some 11) [] [elib] [] []); [|discriminate|constructor].
  apply (ol_cons _ _ None elib); [|constructor].
  apply (own_obj ex_heap KGdbLib 11 [0; 4096; 1]%Z [Some 12] [Some (L "/lib/libc.so")] [12] [] [] [] None None [] []);
    [reflexivity|reflexivity|repeat constructor|constructor|constructor].
Qed.
Example limit_case : exists h', limit_frame_depth ex_heap 0 1 = Ok h' /\ nth_error h' 6 = Some CFree /\ nth_error h' 4 = Some (gframe 5 None).
Proof. eexists. split; [vm_compute; reflexivity|]. split; reflexivity. Qed.
Example free_case : exists h', sr_free KGdbStack ex_heap 0 = Ok h' /\ h' = repeat CFree 13.
Proof. eexists. split; vm_compute; reflexivity. Qed.
Example dup_case : exists h', sr_dup KGdbStack ex_heap 0 false = Ok (h', 13) /\ length h' = 26.
Proof. eexists. split; vm_compute; reflexivity. Qed.

(** ** The core crash thread pointer *)
(* A core stacktrace whose crash thread is its own thread, at address 2. *)
Definition core_heap : heap :=
  [ CObj KCoreStack [6; 0]%Z [Some 1] [Some 2] None [Some 2] None; CStr (L "/bin/sh");
    CObj KCoreThread [] [] [Some 3] None [] None;
    CObj KCoreFrame [1; 2; 0]%Z [None; None; None; None] [] None [] None ].
Definition ecore : entry :=
  (0, Val [6; 0]%Z [Some (L "/bin/sh")] None [[Val [] [] None [[Val [1; 2; 0]%Z [None; None; None; None] None []]]]], [0; 1; 2; 3]).
Example core_case : own core_heap KCoreStack None ecore /\ separate (e_foot ecore).
Proof.
  split; [|nodup].
  apply (own_obj core_heap KCoreStack 0 _ [Some 1] [Some (L "/bin/sh")] [1] [Some 2]
    [[Val [] [] None [[Val [1; 2; 0]%Z [None; None; None; None] None []]]]] [2; 3] None None [] [Some 2]);
    [reflexivity|reflexivity|repeat constructor|constructor|].
  apply (ok_cons core_heap KCoreThread true [] (Some 2) []
    [(2, Val [] [] None [[Val [1; 2; 0]%Z [None; None; None; None] None []]], [2; 3])] [] []); [|discriminate|constructor].
  apply (ol_cons _ _ None (2, Val [] [] None [[Val [1; 2; 0]%Z [None; None; None; None] None []]], [2; 3])); [|constructor].
  apply (own_obj core_heap KCoreThread 2 [] [] [] [] [Some 3] [[Val [1; 2; 0]%Z [None; None; None; None] None []]] [3] None None [] []);
    [reflexivity|reflexivity|constructor|constructor|].
  apply (ok_cons core_heap KCoreFrame true [] (Some 3) [] [(3, Val [1; 2; 0]%Z [None; None; None; None] None [], [3])] [] []);
    [|discriminate|constructor].
  apply (ol_cons _ _ None (3, Val [1; 2; 0]%Z [None; None; None; None] None [], [3])); [|constructor].
  apply (own_obj core_heap KCoreFrame 3 [1; 2; 0]%Z [None; None; None; None] [None; None; None; None] [] [] [] [] None None [] []);
    [reflexivity|reflexivity|repeat constructor|constructor|constructor].
Qed.
(** The copy's crash thread is the original's thread: it lies outside the copy, and once the
    original is freed it points to released memory. *)
Theorem C52_core_crash_thread_refuted : exists h e h' r h'',
  own h KCoreStack None e /\ separate (e_foot e) /\
  sr_dup KCoreStack h (e_addr e) false = Ok (h', r) /\
  core_known_crash_thread h' r = Ok (Some 2) /\ In 2 (e_foot e) /\
  sr_free KCoreStack h' (e_addr e) = Ok h'' /\
  core_known_crash_thread h'' r = Ok (Some 2) /\ freed h'' 2.
Proof.
  exists core_heap, ecore. do 3 eexists. split; [apply core_case|]. split; [apply core_case|].
  split; [vm_compute; reflexivity|]. split; [reflexivity|]. split; [cbn; tauto|].
  split; [vm_compute; reflexivity|]. split; reflexivity.
Qed.
Print Assumptions C20_remove_frame.
Print Assumptions C20_remove_absent.
Print Assumptions C20_remove_above.
Print Assumptions C20_remove_above_absent.
Print Assumptions C20_remove_below.
Print Assumptions C20_frame_count.
Print Assumptions C20_limit_depth.
Print Assumptions C52_deep_copy.
Print Assumptions C52_independent.
Print Assumptions C57_free.
Print Assumptions C57_dup_free_no_leak.
Print Assumptions C52_core_crash_thread_refuted.
Print Assumptions C52_all_members.
