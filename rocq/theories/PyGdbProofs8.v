From Verif Require Import Base Types CrashModel CrashSpec TextModel NormModel NormSpec HeapModel HeapSpec HeapListModel PyModel PySpec PyAttrModel PyAttrSpec PyBaseModel PyBaseSpec PyBaseProofs4 PyGdbModel PyGdbSpec PyGdbProofs5.
Open Scope nat_scope.

(** ** A gdb stack trace with two threads, the second of which somebody else refers to; a library that contains the addresses
    of both frames, and a crash frame *)
Definition sg_heap : heap :=
  [CObj KGdbStack [7]%Z [] [Some 10; Some 1; Some 8] None [] None;
   CObj KGdbThread [1; 7]%Z [] [Some 3] None [] None; CObj KGdbThread [2; 8]%Z [] [Some 5] None [] None;
   CObj KGdbFrame [0; 1; 0; 4200]%Z [Some 4; None; None; None] [] None [] None; CStr (L "main");
   CObj KGdbFrame [0; 1; 0; 5000]%Z [Some 6; None; None; Some 7] [] None [] None; CStr (L "poll"); CStr (L "old");
   CObj KGdbLib [4096; 8191; 0]%Z [Some 9] [] None [] None; CStr (L "/usr/lib64/libm-2.so.6");
   CObj KGdbFrame [0; 1; 0; 4200]%Z [Some 11; None; None; None] [] None [] None; CStr (L "main")].
Definition sg_objs : objects :=
  [Some (1, PyStruct KGdbStack 0 [Some 1; Some 2; Some 3]); Some (1, PyList [4; 5]); Some (1, PyList [6]); Some (1, PyOther);
   Some (1, PyStruct KGdbThread 1 [Some 7]); Some (2, PyStruct KGdbThread 2 [Some 8]); Some (1, PyStruct KGdbLib 8 []);
   Some (1, PyList [9]); Some (1, PyList [10]); Some (1, PyStruct KGdbFrame 3 []); Some (1, PyStruct KGdbFrame 5 [])].
Definition sg_f1 : entry := (3, Val [0; 1; 0; 4200]%Z [Some (L "main"); None; None; None] None [], [3; 4]).
Definition sg_f2 : entry := (5, Val [0; 1; 0; 5000]%Z [Some (L "poll"); None; None; Some (L "old")] None [], [5; 6; 7]).
Definition sg_crash : entry := (10, Val [0; 1; 0; 4200]%Z [Some (L "main"); None; None; None] None [], [10; 11]).
Definition sg_lib : entry := (8, Val [4096; 8191; 0]%Z [Some (L "/usr/lib64/libm-2.so.6")] None [], [8; 9]).
Definition sg_t1 : py_thread := PT 4 7 [9] (1, Val [1; 7]%Z [] None [[e_val sg_f1]], [1; 3; 4]) [sg_f1].
Definition sg_t2 : py_thread := PT 5 8 [10] (2, Val [2; 8]%Z [] None [[e_val sg_f2]], [2; 5; 6; 7]) [sg_f2].
Definition sg_e : entry := (0, Val [7]%Z [] None [[e_val sg_crash]; map e_val (map pt_entry [sg_t1; sg_t2]); [e_val sg_lib]], [0; 10; 11; 1; 3; 4; 2; 5; 6; 7; 8; 9]).
Definition sg_g1 : gdb_frame := mk_gdb_frame (Some (L "main")) None 0 None 1 false 4200 None.
Definition sg_g2 : gdb_frame := mk_gdb_frame (Some (L "poll")) None 0 None 1 false 5000 (Some (L "old")).
Definition sg_s : gdb_stacktrace :=
  mk_gdb_stacktrace [mk_gdb_thread 1 7 [sg_g1]; mk_gdb_thread 2 8 [sg_g2]] (Some sg_g1) [mk_gdb_sharedlib 4096 8191 0 (Some (L "/usr/lib64/libm-2.so.6"))] 7.
Lemma sg_case : py_gdb sg_objs sg_heap 0 1 2 [Some 3] 1 1 None sg_e [sg_t1; sg_t2] [6] [sg_lib] sg_s.
Proof.
  assert (F1 : exists m, own sg_heap KGdbFrame m sg_f1) by (exists None; unfold sg_f1; change [3; 4] with (3 :: [4] ++ [] ++ []); eapply own_obj; try reflexivity; repeat (constructor; try reflexivity)).
  assert (F2 : exists m, own sg_heap KGdbFrame m sg_f2) by (exists None; unfold sg_f2; change [5; 6; 7] with (5 :: [6; 7] ++ [] ++ []); eapply own_obj; try reflexivity; repeat (constructor; try reflexivity)).
  assert (Fc : own sg_heap KGdbFrame None sg_crash) by (unfold sg_crash; change [10; 11] with (10 :: [11] ++ [] ++ []); eapply own_obj; try reflexivity; repeat (constructor; try reflexivity)).
  assert (Fl : own sg_heap KGdbLib None sg_lib) by (unfold sg_lib; change [8; 9] with (8 :: [9] ++ [] ++ []); eapply own_obj; try reflexivity; repeat (constructor; try reflexivity)).
  split; [reflexivity|]. split; [lia|]. split; [reflexivity|]. split; [lia|].
  split; [|split; [|split; [|split; [|split]]]].
  - split; [exists 0; reflexivity|]. constructor; [|constructor; [|constructor]]; (split; [eexists; reflexivity|split; [exists 0; reflexivity|constructor; [exists 0; reflexivity|constructor]]]).
  - repeat constructor; cbn; intuition discriminate.
  - split; [exists 0; reflexivity|]. constructor; [exists 0; reflexivity|constructor].
  - exists [7]%Z, (Some 10), (Some 1), (Some 8), [sg_crash], None, None, [], []. split; [reflexivity|]. split; [constructor|]. split; [change (Some 10) with (Some (e_addr sg_crash)); econstructor; [exact Fc|constructor]|].
    split; [cbn; lia|]. split; [reflexivity|]. split; [reflexivity|]. split; [|split; [discriminate|split; [constructor; [exists None; exact Fl|constructor]|discriminate]]].
    constructor; [|constructor; [|constructor]].
    + exists None, [1; 7]%Z, [], (Some 3), [], [], None, None, [], []. split; [reflexivity|]. split; [reflexivity|]. split; [reflexivity|]. split; [constructor|]. split; [constructor|]. split; [reflexivity|]. split; [reflexivity|]. split; [constructor; [exact F1|constructor]|discriminate].
    + exists None, [2; 8]%Z, [], (Some 5), [], [], None, None, [], []. split; [reflexivity|]. split; [reflexivity|]. split; [reflexivity|]. split; [constructor|]. split; [constructor|]. split; [reflexivity|]. split; [reflexivity|]. split; [constructor; [exact F2|constructor]|discriminate].
  - unfold separate, sg_e. cbn [e_foot snd]. repeat constructor; cbn; intuition discriminate.
  - assert (G1 : is_frame KGdbFrame (e_val sg_f1) (FGdb sg_g1)) by now_members. assert (G2 : is_frame KGdbFrame (e_val sg_f2) (FGdb sg_g2)) by now_members.
    split; [reflexivity|]. split; [reflexivity|]. do 3 eexists. split; [reflexivity|]. split; [constructor; [exact G1|constructor]|]. split; [|constructor; [repeat split; now_number|constructor]].
    constructor; [|constructor; [|constructor]]; (split; [reflexivity|]; split; [now_number|]; split; [now_number|]; eexists; split; [reflexivity|]; constructor; [assumption|constructor]).
Qed.
Lemma sg_sonames : Forall (fun l => gl_soname l <> None) (gs_libs sg_s).
Proof. repeat constructor. discriminate. Qed.
Lemma sg_text : exists out, sr_gdb_stacktrace_to_short_text sg_s 5 = Ok (Some out).
Proof. eexists. vm_compute. reflexivity. Qed.
Definition nothing (h : heap) (a : addr) : res heap := Ok h.
Lemma nothing_turns : turns nothing (e_val sg_e) sg_s.
Proof.
  intros h e O N V. exists h, e. split; [reflexivity|]. split; [exact O|]. split; [reflexivity|]. split; [exact N|]. split; [rewrite V; apply sg_case|apply turned_refl].
Qed.
(* what became of it *)
Lemma sg_named : exists os' h', py_set_libnames (St sg_objs sg_heap) 0 = Ok (St os' h', Value tt) /\
  nth_error os' 4 = Some None /\ object os' 5 1 (PyStruct KGdbThread 2 [Some 8]) /\ freed h' 3 /\ freed h' 7 /\
  exists x, nth_error h' 5 = Some (CObj KGdbFrame [0; 1; 0; 5000]%Z [Some 6; None; None; Some x] [] None [] None) /\ nth_error h' x = Some (CStr (L "libm-2.so")).
Proof. eexists _, _. split; [vm_compute; reflexivity|]. split; [reflexivity|]. split; [reflexivity|]. split; [reflexivity|]. split; [reflexivity|]. eexists. split; reflexivity. Qed.
Lemma sg_leak : exists os' h', gdb_normalize nothing (St sg_objs sg_heap) 0 = Ok (St os' h', Value tt) /\ nth_error h' 10 = nth_error sg_heap 10 /\
  Forall (fun c => ~ refers c 10) h' /\ Forall (fun o => match o with Some (_, PyStruct _ a _) => a <> 10 | _ => True end) os'.
Proof.
  eexists _, _. split; [vm_compute; reflexivity|]. split; [reflexivity|]. split.
  - repeat (constructor; [cbn; intuition discriminate|]). constructor.
  - repeat (constructor; [try exact I; discriminate|]). constructor.
Qed.
(* the same with a library that has no name *)
Definition su_heap : heap := replace_nth sg_heap 8 (CObj KGdbLib [4096; 8191; 0]%Z [None] [] None [] None).
Definition su_lib : entry := (8, Val [4096; 8191; 0]%Z [None] None [], [8]).
Definition su_e : entry := (0, Val [7]%Z [] None [[e_val sg_crash]; map e_val (map pt_entry [sg_t1; sg_t2]); [e_val su_lib]], [0; 10; 11; 1; 3; 4; 2; 5; 6; 7; 8]).
Definition su_s : gdb_stacktrace := mk_gdb_stacktrace (gs_threads sg_s) (gs_crash sg_s) [mk_gdb_sharedlib 4096 8191 0 None] 7.
Lemma su_case : py_gdb sg_objs su_heap 0 1 2 [Some 3] 1 1 None su_e [sg_t1; sg_t2] [6] [su_lib] su_s.
Proof.
  assert (F1 : exists m, own su_heap KGdbFrame m sg_f1) by (exists None; unfold sg_f1; change [3; 4] with (3 :: [4] ++ [] ++ []); eapply own_obj; try reflexivity; repeat (constructor; try reflexivity)).
  assert (F2 : exists m, own su_heap KGdbFrame m sg_f2) by (exists None; unfold sg_f2; change [5; 6; 7] with (5 :: [6; 7] ++ [] ++ []); eapply own_obj; try reflexivity; repeat (constructor; try reflexivity)).
  assert (Fc : own su_heap KGdbFrame None sg_crash) by (unfold sg_crash; change [10; 11] with (10 :: [11] ++ [] ++ []); eapply own_obj; try reflexivity; repeat (constructor; try reflexivity)).
  assert (Fl : own su_heap KGdbLib None su_lib) by (unfold su_lib; change [8] with (8 :: [] ++ [] ++ []); eapply own_obj; try reflexivity; repeat (constructor; try reflexivity)).
  split; [reflexivity|]. split; [lia|]. split; [reflexivity|]. split; [lia|].
  split; [|split; [|split; [|split; [|split]]]].
  - split; [exists 0; reflexivity|]. constructor; [|constructor; [|constructor]]; (split; [eexists; reflexivity|split; [exists 0; reflexivity|constructor; [exists 0; reflexivity|constructor]]]).
  - repeat constructor; cbn; intuition discriminate.
  - split; [exists 0; reflexivity|]. constructor; [exists 0; reflexivity|constructor].
  - exists [7]%Z, (Some 10), (Some 1), (Some 8), [sg_crash], None, None, [], []. split; [reflexivity|]. split; [constructor|]. split; [change (Some 10) with (Some (e_addr sg_crash)); econstructor; [exact Fc|constructor]|].
    split; [cbn; lia|]. split; [reflexivity|]. split; [reflexivity|]. split; [|split; [discriminate|split; [constructor; [exists None; exact Fl|constructor]|discriminate]]].
    constructor; [|constructor; [|constructor]].
    + exists None, [1; 7]%Z, [], (Some 3), [], [], None, None, [], []. split; [reflexivity|]. split; [reflexivity|]. split; [reflexivity|]. split; [constructor|]. split; [constructor|]. split; [reflexivity|]. split; [reflexivity|]. split; [constructor; [exact F1|constructor]|discriminate].
    + exists None, [2; 8]%Z, [], (Some 5), [], [], None, None, [], []. split; [reflexivity|]. split; [reflexivity|]. split; [reflexivity|]. split; [constructor|]. split; [constructor|]. split; [reflexivity|]. split; [reflexivity|]. split; [constructor; [exact F2|constructor]|discriminate].
  - unfold separate, su_e. cbn [e_foot snd]. repeat constructor; cbn; intuition discriminate.
  - assert (G1 : is_frame KGdbFrame (e_val sg_f1) (FGdb sg_g1)) by now_members. assert (G2 : is_frame KGdbFrame (e_val sg_f2) (FGdb sg_g2)) by now_members.
    split; [reflexivity|]. split; [reflexivity|]. do 3 eexists. split; [reflexivity|]. split; [constructor; [exact G1|constructor]|]. split; [|constructor; [repeat split; now_number|constructor]].
    constructor; [|constructor; [|constructor]]; (split; [reflexivity|]; split; [now_number|]; split; [now_number|]; eexists; split; [reflexivity|]; constructor; [assumption|constructor]).
Qed.
Lemma su_crash : py_set_libnames (St sg_objs su_heap) 0 = UB.
Proof. vm_compute. reflexivity. Qed.
