(** * Sample states for P_PyBase.v. *)
From Coq Require Import QArith.
From Verif Require Import Base Types NormSpec UtilsProofs NormModel CmpModel CmpSpec TextModel TextSpec DistModel CrashModel HeapModel HeapSpec PyModel PySpec PyProofs8
  PyAttrModel PyAttrSpec PyAttrProofs PyBaseModel PyBaseSpec.
Open Scope nat_scope.

Ltac now_number := first [exists 0; split; reflexivity | exists 1; split; reflexivity | exists 2; split; reflexivity | exists 3; split; reflexivity].
Ltac now_flag := eexists; split; [now_number | split; [intros H; (discriminate H || discriminate) | intros H; (reflexivity || (exfalso; apply H; reflexivity))]].
Ltac now_members := unfold is_frame; repeat match goal with |- _ /\ _ => split end; first [reflexivity | now_number | now_flag].

(* two core threads with one frame each, an object that is no frame, and one more frame *)
Definition cthread : cell := CObj KCoreThread [] [] [None] None [] None.
Definition pb_heap : heap :=
  [cthread; CObj KCoreFrame [4096; 16; 1]%Z [Some 2; Some 3; None; None] [] None [] None; CStr (L "ab12"); CStr (L "main");
   cthread; CObj KCoreFrame [8192; 16; 0]%Z [Some 6; Some 7; None; None] [] None [] None; CStr (L "ab12"); CStr (L "main");
   CObj KCoreFrame [1; 2; 1]%Z [None; Some 9; None; None] [] None [] None; CStr (L "f")].
Definition pb_objs (l m : list ref) : objects :=
  [Some (1, PyStruct KCoreThread 0 [Some 1]); Some (1, PyList l); Some (1, PyStruct KCoreFrame 1 []); Some (1, PyStruct KCoreThread 4 [Some 4]); Some (1, PyList m);
   Some (1, PyStruct KCoreFrame 5 []); Some (1, PyOther); Some (1, PyStruct KCoreFrame 8 [])].
Definition pb_f1 : entry := (1, Val [4096; 16; 1]%Z [Some (L "ab12"); Some (L "main"); None; None] None [], [1; 2; 3]).
Definition pb_f2 : entry := (5, Val [8192; 16; 0]%Z [Some (L "ab12"); Some (L "main"); None; None] None [], [5; 6; 7]).
Definition pb_f3 : entry := (8, Val [1; 2; 1]%Z [None; Some (L "f"); None; None] None [], [8; 9]).
Definition fr1 := mk_core_frame 4096 (Some (L "ab12")) 16 (Some (L "main")) None None true.
Definition fr2 := mk_core_frame 8192 (Some (L "ab12")) 16 (Some (L "main")) None None false.
Definition fr3 := mk_core_frame 1 None 2 (Some (L "f")) None None true.
Definition pb_t (a : addr) (es : list entry) : entry := (a, Val [] [] None [map e_val es], a :: foot es).
Lemma pb_own : own pb_heap KCoreFrame None pb_f1 /\ own pb_heap KCoreFrame None pb_f2 /\ own pb_heap KCoreFrame None pb_f3.
Proof.
  repeat split.
  - unfold pb_f1. change [1; 2; 3] with (1 :: [2; 3] ++ [] ++ []). eapply own_obj; try reflexivity; repeat constructor.
  - unfold pb_f2. change [5; 6; 7] with (5 :: [6; 7] ++ [] ++ []). eapply own_obj; try reflexivity; repeat constructor.
  - unfold pb_f3. change [8; 9] with (8 :: [9] ++ [] ++ []). eapply own_obj; try reflexivity; repeat constructor.
Qed.
Lemma pb_is1 : is_frame KCoreFrame (e_val pb_f1) (FCore fr1). Proof. now_members. Qed.
Lemma pb_is2 : is_frame KCoreFrame (e_val pb_f2) (FCore fr2). Proof. now_members. Qed.
Lemma pb_is3 : is_frame KCoreFrame (e_val pb_f3) (FCore fr3). Proof. now_members. Qed.
Lemma pb_frame1 : py_frame (pb_objs [2] [5]) pb_heap 2 KCoreFrame None pb_f1 (FCore fr1).
Proof. split; [exists [], 0; reflexivity|]. split; [apply pb_own|exact pb_is1]. Qed.
Lemma pb_frame2 : py_frame (pb_objs [2] [5]) pb_heap 5 KCoreFrame None pb_f2 (FCore fr2).
Proof. split; [exists [], 0; reflexivity|]. split; [apply pb_own|exact pb_is2]. Qed.
Lemma pb_thread a r l items es fs os : nth_error pb_heap a = Some cthread -> alive os r (PyStruct KCoreThread a [Some l]) -> alive os l (PyList items) ->
  Forall2 (fun r e => alive os r (PyStruct KCoreFrame (e_addr e) [])) items es -> Forall (fun e => own pb_heap KCoreFrame None e) es ->
  Forall2 (fun e f => is_frame KCoreFrame (e_val e) f) es (map FCore fs) -> NoDup (a :: foot es) ->
  py_thread_is os pb_heap r KCoreThread None (pb_t a es) es (TCore (mk_core_thread fs)).
Proof.
  intros Ha A Al F O I N. exists KCoreFrame, l, items, []. split; [exact A|]. split; [split; assumption|]. split.
  - exists [], [], None, [], [], None, None, [], []. split; [reflexivity|]. split; [exact Ha|]. split; [reflexivity|]. split; [constructor|]. split; [constructor|].
    split; [reflexivity|]. split; [reflexivity|]. split; [|reflexivity]. eapply Forall_impl; [|exact O]. intros e Oe. exists None. exact Oe.
  - split; [exact N|]. split; [reflexivity|]. exists (map e_val es). split; [reflexivity|]. cbn [ct_frames]. clear - I. revert I. generalize (map FCore fs). intros m I. induction I; cbn [map]; constructor; assumption.
Qed.
Lemma pb_t1 : py_thread_is (pb_objs [2] [5]) pb_heap 0 KCoreThread None (pb_t 0 [pb_f1]) [pb_f1] (TCore (mk_core_thread [fr1])).
Proof.
  apply (pb_thread 0 0 1 [2] [pb_f1] [fr1]); try reflexivity; try (exists 0; reflexivity).
  - repeat constructor. exists 0; reflexivity.
  - repeat constructor. apply pb_own.
  - constructor; [exact pb_is1|constructor].
  - repeat constructor; cbn; intuition discriminate.
Qed.
Lemma pb_t2 : py_thread_is (pb_objs [2] [5]) pb_heap 3 KCoreThread None (pb_t 4 [pb_f2]) [pb_f2] (TCore (mk_core_thread [fr2])).
Proof.
  apply (pb_thread 4 3 4 [5] [pb_f2] [fr2]); try reflexivity; try (exists 0; reflexivity).
  - repeat constructor. exists 0; reflexivity.
  - repeat constructor. apply pb_own.
  - constructor; [exact pb_is2|constructor].
  - repeat constructor; cbn; intuition discriminate.
Qed.
Lemma pb_apart : disjoint (e_foot (pb_t 0 [pb_f1])) (e_foot (pb_t 4 [pb_f2])).
Proof. intros x. cbn. intuition (subst; discriminate). Qed.
(* one frame object in both lists *)
Lemma pb_s1 : py_thread_is (pb_objs [2] [2; 7]) pb_heap 0 KCoreThread None (pb_t 0 [pb_f1]) [pb_f1] (TCore (mk_core_thread [fr1])).
Proof.
  apply (pb_thread 0 0 1 [2] [pb_f1] [fr1]); try reflexivity; try (exists 0; reflexivity).
  - repeat constructor. exists 0; reflexivity.
  - repeat constructor. apply pb_own.
  - constructor; [exact pb_is1|constructor].
  - repeat constructor; cbn; intuition discriminate.
Qed.
Lemma pb_s2 : py_thread_is (pb_objs [2] [2; 7]) pb_heap 3 KCoreThread None (pb_t 4 [pb_f1; pb_f3]) [pb_f1; pb_f3] (TCore (mk_core_thread [fr1; fr3])).
Proof.
  apply (pb_thread 4 3 4 [2; 7] [pb_f1; pb_f3] [fr1; fr3]); try reflexivity; try (exists 0; reflexivity).
  - repeat constructor; exists 0; reflexivity.
  - repeat constructor; apply pb_own.
  - constructor; [exact pb_is1|constructor; [exact pb_is3|constructor]].
  - repeat constructor; cbn; intuition discriminate.
Qed.
Lemma pb_foreign : foreign (pb_objs [2; 6] [5]) pb_heap 0 KCoreThread 0 [pb_f1].
Proof.
  exists KCoreFrame, 1, [2], 6, [], [], [], [], None, None, [], None. repeat (split; [solve [reflexivity | exists 0; reflexivity]|]).
  split; [repeat constructor; exists 0; reflexivity|]. split; [exists PyOther; split; [exists 0; reflexivity|discriminate]|]. split; [reflexivity|].
  split; [repeat constructor; exists None; apply pb_own|]. repeat constructor; cbn; intuition discriminate.
Qed.

(* two java threads of the same name, the second with one frame more *)
Definition jthread : cell := CObj KJavaThread [] [None] [None] None [] None.
Definition jcell (s : addr) : cell := CObj KJavaFrame [3; 0; 0]%Z [Some s; None; None; None] [] None [] None.
Definition jv_heap : heap := [jthread; jcell 2; CStr (L "a"); jthread; jcell 5; CStr (L "a"); jcell 7; CStr (L "b")].
Definition jv_objs : objects :=
  [Some (1, PyStruct KJavaThread 0 [Some 1]); Some (1, PyList [2]); Some (1, PyStruct KJavaFrame 1 []); Some (1, PyStruct KJavaThread 3 [Some 4]); Some (1, PyList [5; 6]);
   Some (1, PyStruct KJavaFrame 4 []); Some (1, PyStruct KJavaFrame 6 [])].
Definition jfr n := mk_java_frame (Some (L n)) None 3 None false false None.
Definition jv_f (a : addr) (n : str) : entry := (a, Val [3; 0; 0]%Z [Some n; None; None; None] None [], [a; S a]).
Definition jv_t (a : addr) (es : list entry) : entry := (a, Val [] [None] None [map e_val es], a :: foot es).
Lemma jv_own a n : nth_error jv_heap a = Some (jcell (S a)) -> nth_error jv_heap (S a) = Some (CStr n) -> own jv_heap KJavaFrame None (jv_f a n).
Proof. intros H1 H2. unfold jv_f. change [a; S a] with (a :: [S a] ++ [] ++ []). eapply own_obj; [exact H1|reflexivity|constructor; [exact H2|repeat constructor]|constructor|constructor]. Qed.
Lemma jv_1 : py_thread_is jv_objs jv_heap 0 KJavaThread None (jv_t 0 [jv_f 1 (L "a")]) [jv_f 1 (L "a")] (TJava (mk_java_thread None [jfr "a"])).
Proof.
  exists KJavaFrame, 1, [2], []. split; [exists 0; reflexivity|]. split; [split; [exists 0; reflexivity|repeat constructor; exists 0; reflexivity]|]. split; [|split].
  - exists [], [None], None, [None], [], None, None, [], []. split; [reflexivity|]. split; [reflexivity|]. split; [reflexivity|]. split; [repeat constructor|]. split; [constructor|].
    split; [reflexivity|]. split; [reflexivity|]. split; [|discriminate]. repeat constructor; exists None; apply jv_own; reflexivity.
  - repeat constructor; cbn; intuition discriminate.
  - split; [reflexivity|]. split; [now_number|]. exists [e_val (jv_f 1 (L "a"))]. split; [reflexivity|]. constructor; [|constructor]. now_members.
Qed.
Lemma jv_2 : py_thread_is jv_objs jv_heap 3 KJavaThread None (jv_t 3 [jv_f 4 (L "a"); jv_f 6 (L "b")]) [jv_f 4 (L "a"); jv_f 6 (L "b")] (TJava (mk_java_thread None [jfr "a"; jfr "b"])).
Proof.
  exists KJavaFrame, 4, [5; 6], []. split; [exists 0; reflexivity|]. split; [split; [exists 0; reflexivity|repeat constructor; exists 0; reflexivity]|]. split; [|split].
  - exists [], [None], None, [None], [], None, None, [], []. split; [reflexivity|]. split; [reflexivity|]. split; [reflexivity|]. split; [repeat constructor|]. split; [constructor|].
    split; [reflexivity|]. split; [reflexivity|]. split; [|discriminate]. repeat constructor; exists None; apply jv_own; reflexivity.
  - repeat constructor; cbn; intuition discriminate.
  - split; [reflexivity|]. split; [now_number|]. exists [e_val (jv_f 4 (L "a")); e_val (jv_f 6 (L "b"))]. split; [reflexivity|]. constructor; [|constructor; [|constructor]]; now_members.
Qed.
Lemma jv_equals : exists st', thread_equals (St jv_objs jv_heap) 0 3 = Ok (st', Value true).
Proof. eexists. vm_compute. reflexivity. Qed.

(* two Python stack traces with the same exception and no frames *)
Definition ex_heap : heap := [CObj KPythonStack [] [Some 1] [None] None [] None; CStr (L "KeyError"); CObj KPythonStack [] [Some 3] [None] None [] None; CStr (L "KeyError")].
Definition ex_objs : objects := [Some (1, PyStruct KPythonStack 0 [Some 1]); Some (1, PyList []); Some (1, PyStruct KPythonStack 2 [Some 3]); Some (1, PyList [])].
Definition ex_e (a : addr) : entry := (a, Val [] [Some (L "KeyError")] None [[]], [a; S a]).
Lemma ex_thread a r l : nth_error ex_heap a = Some (CObj KPythonStack [] [Some (S a)] [None] None [] None) -> nth_error ex_heap (S a) = Some (CStr (L "KeyError")) ->
  object ex_objs r 1 (PyStruct KPythonStack a [Some l]) -> object ex_objs l 1 (PyList []) ->
  py_thread_is ex_objs ex_heap r KPythonStack None (ex_e a) [] (TPython (mk_python_stacktrace (Some (L "KeyError")) [])).
Proof.
  intros H1 H2 Hr Hl. exists KPythonFrame, l, [], []. split; [exists 0; exact Hr|]. split; [split; [exists 0; exact Hl|constructor]|]. split; [|split].
  - exists [], [Some (S a)], None, [Some (L "KeyError")], [S a], None, None, [], []. split; [reflexivity|]. split; [exact H1|]. split; [reflexivity|]. split; [repeat constructor; exact H2|].
    split; [constructor|]. split; [reflexivity|]. split; [reflexivity|]. split; [constructor|reflexivity].
  - constructor; [|constructor; [|constructor]]; cbn; intuition lia.
  - split; [reflexivity|]. split; [now_number|]. exists []. split; [reflexivity|constructor].
Qed.

(* a gdb stack trace with one shared library, and an empty list *)
Definition gl_heap (libs : option addr) : heap :=
  [CObj KGdbStack [0]%Z [] [None; None; libs] None [] None; CObj KGdbLib [4096; 8191; 0]%Z [Some 2] [] None [] None; CStr (L "libc.so.6")].
Definition gl_objs : objects :=
  [Some (1, PyStruct KGdbStack 0 [Some 1; Some 2; Some 3]); Some (1, PyList []); Some (1, PyList [4]); Some (1, PyOther); Some (1, PyStruct KGdbLib 1 []); Some (1, PyList [])].
Definition gl_lib : entry := (1, Val [4096; 8191; 0]%Z [Some (L "libc.so.6")] None [], [1; 2]).
Definition gl_e : entry := (0, Val [0]%Z [] None [[]; []; [e_val gl_lib]], [0; 1; 2]).
Definition gl_s : gdb_stacktrace := mk_gdb_stacktrace [] None [mk_gdb_sharedlib 4096 8191 0 (Some (L "libc.so.6"))] 0.
Lemma gl_case libs : py_gdb_is gl_objs (gl_heap libs) 0 None gl_e [] [4] [gl_lib] gl_s.
Proof.
  exists 1, 2, [Some 3]. split; [exists 0; reflexivity|]. split; [split; [exists 0; reflexivity|constructor]|]. split; [split; [exists 0; reflexivity|repeat constructor; exists 0; reflexivity]|].
  split; [|split; [repeat constructor; cbn; intuition discriminate|]].
  - exists [0]%Z, None, None, libs, [], None, None, [], []. split; [reflexivity|]. split; [constructor|]. split; [constructor|]. split; [cbn; lia|]. split; [reflexivity|]. split; [reflexivity|].
    split; [constructor|]. split; [reflexivity|]. split; [|discriminate]. constructor; [|constructor]. exists None. unfold gl_lib. change [1; 2] with (1 :: [2] ++ [] ++ []).
    eapply own_obj; try reflexivity; repeat constructor.
  - split; [reflexivity|]. split; [reflexivity|]. exists [], [], [e_val gl_lib]. split; [reflexivity|]. split; [constructor|]. split; [constructor|]. constructor; [|constructor].
    repeat split; now_number.
Qed.
Lemma gl_stale sha1 : exists st1, set_attr (St gl_objs (gl_heap (Some 1))) 0 1 5 = Ok st1 /\ object (objs st1) 0 1 (PyStruct KGdbStack 0 [Some 1; Some 5; Some 3]) /\
  object (objs st1) 5 2 (PyList []) /\ multi_get_bthash sha1 st1 0 0 = UB.
Proof. eexists. split; [run|]. split; [reflexivity|]. split; reflexivity. Qed.
Lemma gl_ignored : exists t st', multi_get_bthash (fun x => x) (St gl_objs (gl_heap None)) 0 2 = Ok (st', Value t) /\
  ~ utf8 t (sr_stacktrace_get_bthash (fun x => x) (SGdb gl_s) 2).
Proof.
  eexists _, _. split; [vm_compute; reflexivity|]. intros U. apply from_utf8_iff in U. vm_compute in U. discriminate.
Qed.

(* a core stack trace of one thread, its crash thread, and a list with another thread *)
Definition cr_heap : heap :=
  [CObj KCoreStack [11; 0]%Z [None] [Some 1] None [Some 1] None; CObj KCoreThread [] [] [Some 2] None [] None;
   CObj KCoreFrame [1; 2; 1]%Z [None; Some 3; None; None] [] None [] None; CStr (L "f");
   cthread; CObj KCoreFrame [1; 2; 1]%Z [None; Some 6; None; None] [] None [] None; CStr (L "g")].
Definition cr_objs : objects :=
  [Some (1, PyStruct KCoreStack 0 [Some 1]); Some (1, PyList [2]); Some (1, PyStruct KCoreThread 1 [Some 3]); Some (1, PyList [4]); Some (1, PyStruct KCoreFrame 2 []);
   Some (1, PyList [6]); Some (1, PyStruct KCoreThread 4 [Some 7]); Some (1, PyList [8]); Some (1, PyStruct KCoreFrame 5 [])].
Definition cr_f : entry := (2, Val [1; 2; 1]%Z [None; Some (L "f"); None; None] None [], [2; 3]).
Definition cr_t : entry := (1, Val [] [] None [[e_val cr_f]], [1; 2; 3]).
Definition cr_e : entry := (0, Val [11; 0]%Z [None] None [[e_val cr_t]], [0; 1; 2; 3]).
Definition cr_s : core_stacktrace := mk_core_stacktrace 11 None (Some 0) [mk_core_thread [fr3]] false.
Lemma cr_case : py_stack_is cr_objs cr_heap 0 KCoreStack None cr_e [PT 2 3 [4] cr_t [cr_f]] (SCore cr_s) /\ crash_pointer cr_heap cr_e [PT 2 3 [4] cr_t [cr_f]] (SCore cr_s).
Proof.
  split.
  - exists KCoreThread, KCoreFrame, 1, []. split; [reflexivity|]. split; [reflexivity|]. split; [exists 0; reflexivity|]. split.
    { split; [exists 0; reflexivity|]. constructor; [|constructor]. split; [exists 0; reflexivity|]. split; [exists 0; reflexivity|]. repeat constructor. exists 0; reflexivity. }
    split; [|split; [repeat constructor; cbn; intuition discriminate|]].
    + exists KCoreThread, KCoreFrame, [11; 0]%Z, [None], (Some 1), [None], [], None, None, [], [Some 1]. split; [tauto|]. repeat (split; [reflexivity|]). split; [repeat constructor|]. split; [constructor|].
      split; [reflexivity|]. split; [reflexivity|]. split; [|discriminate]. constructor; [|constructor]. exists None.
      exists [], [], (Some 2), [], [], None, None, [], []. repeat (split; [solve [reflexivity | constructor]|]). split; [|discriminate]. constructor; [|constructor]. exists None.
      unfold cr_f. change [2; 3] with (2 :: [3] ++ [] ++ []). eapply own_obj; try reflexivity; repeat constructor.
    + split; [reflexivity|]. split; [now_number|]. split; [now_number|]. split; [now_flag|]. exists [e_val cr_t]. split; [reflexivity|]. constructor; [|constructor]. split; [reflexivity|].
      exists [e_val cr_f]. split; [reflexivity|]. constructor; [|constructor]. now_members.
  - exists [11; 0]%Z, [None], [Some 1], None, (Some 1), None. split; [reflexivity|]. cbn [cs_crash_thread cr_s]. eexists. split; reflexivity.
Qed.
Lemma cr_dangling : exists st1, set_attr (St cr_objs cr_heap) 0 0 5 = Ok st1 /\ object (objs st1) 0 1 (PyStruct KCoreStack 0 [Some 5]) /\ object (objs st1) 5 2 (PyList [6]) /\
  multi_to_short_text st1 0 0 = UB.
Proof. eexists. split; [run|]. split; [reflexivity|]. split; reflexivity. Qed.
