(** * Sample objects for the methods. *)
From Verif Require Import Base Types UtilsModel NormTables CmpModel TextModel NormModel NormSpec CrashModel FunsModel HeapModel HeapListModel HeapSpec HeapProofs HeapProofs2
  PyModel PySpec PyProofs PyProofs8 PyAttrModel PyAttrSpec PyBaseModel PyBaseSpec PyBaseProofs PyBaseProofs4 PyMethModel PyMethSpec.
Open Scope nat_scope.
Ltac number_at := first [exists 0; split; reflexivity | exists 1; split; reflexivity | exists 2; split; reflexivity | exists 3; split; reflexivity | exists 4; split; reflexivity | exists 5; split; reflexivity | exists 6; split; reflexivity].
Ltac flag_at := eexists; split; [number_at | split; [intros H; (discriminate H || discriminate) | intros H; (reflexivity || (exfalso; apply H; reflexivity))]].
Ltac members := unfold is_frame; repeat match goal with |- _ /\ _ => split end; first [reflexivity | number_at | flag_at].

(* a gdb thread of one frame, and an empty list; the C thread may know the frame or not *)
Definition gt_heap (p : option addr) : heap :=
  [CObj KGdbThread [1; 100]%Z [] [p] None [] None; CObj KGdbFrame [0; 7; 0; 4096]%Z [Some 2; None; Some 3; None] [] None [] None; CStr (L "main"); CStr (L "src/a.c")].
Definition gt_objs : objects := [Some (1, PyStruct KGdbThread 0 [Some 1]); Some (1, PyList [2]); Some (1, PyStruct KGdbFrame 1 []); Some (1, PyList [])].
Definition gt_f : entry := (1, Val [0; 7; 0; 4096]%Z [Some (L "main"); None; Some (L "src/a.c"); None] None [], [1; 2; 3]).
Definition gt_e : entry := (0, Val [1; 100]%Z [] None [[e_val gt_f]], [0; 1; 2; 3]).
Definition gt_frame : gdb_frame := mk_gdb_frame (Some (L "main")) None 0 (Some (L "src/a.c")) 7 false 4096 None.
Definition gt_t : thread := TGdb (mk_gdb_thread 1 100 [gt_frame]).
Lemma gt_own p : own (gt_heap p) KGdbFrame None gt_f.
Proof. unfold gt_f. change [1; 2; 3] with (1 :: [2; 3] ++ [] ++ []). eapply own_obj; try reflexivity; repeat constructor. Qed.
Lemma gt_is_frame : is_frame KGdbFrame (e_val gt_f) (FGdb gt_frame).
Proof. members. Qed.
Lemma gt_case p : py_thread_is gt_objs (gt_heap p) 0 KGdbThread None gt_e [gt_f] gt_t.
Proof.
  exists KGdbFrame, 1, [2], []. split; [exists 0; reflexivity|]. split; [split; [exists 0; reflexivity|constructor; [exists 0; reflexivity|constructor]]|].
  split; [|split; [repeat constructor; cbn; intuition discriminate|]].
  - exists [1; 100]%Z, [], p, [], [], None, None, [], []. split; [reflexivity|]. split; [reflexivity|]. split; [reflexivity|]. split; [constructor|]. split; [constructor|]. split; [reflexivity|]. split; [reflexivity|].
    split; [|discriminate]. constructor; [|constructor]. exists None. apply gt_own.
  - split; [reflexivity|]. split; [now_number|]. split; [now_number|]. exists [e_val gt_f]. split; [reflexivity|]. constructor; [exact gt_is_frame|constructor].
Qed.
Lemma gt_frame_case p : py_frame gt_objs (gt_heap p) 2 KGdbFrame None gt_f (FGdb gt_frame).
Proof. split; [exists []; exists 0; reflexivity|]. split; [apply gt_own|exact gt_is_frame]. Qed.
Lemma gt_foreign : foreign [Some (1, PyStruct KGdbThread 0 [Some 1]); Some (1, PyList [2; 3]); Some (1, PyStruct KGdbFrame 1 []); Some (1, PyList [])] (gt_heap None) 0 KGdbThread 0 [gt_f].
Proof.
  exists KGdbFrame, 1, [2], 3, [], [], [1; 100]%Z, [], None, None, [], None. split; [reflexivity|]. split; [exists 0; reflexivity|]. split; [exists 0; reflexivity|].
  split; [constructor; [exists 0; reflexivity|constructor]|]. split; [exists (PyList []); split; [exists 0; reflexivity|discriminate]|]. split; [reflexivity|].
  split; [constructor; [exists None; apply gt_own|constructor]|]. repeat constructor; cbn; intuition discriminate.
Qed.

(* a kernel oops of three frames, with two modules; the second frame is also in a variable *)
Definition ko_flags : list Z := [1; 0; 0; 0; 0; 0; 0; 1; 0; 0; 0; 0; 0; 0; 0; 0]%Z.
Definition ko_nums : list Z := [64; 1; 2; 3; 0; 0; 0]%Z.
Definition ko_heap (p : option addr) (m2 : str) : heap :=
  [CObj KKoopsStack ko_flags [Some 1; None; None] [p] (Some 2) [] None; CStr (L "3.10"); CArr [3; 4]; CStr (L "ext4"); CStr m2;
   CObj KKoopsFrame ko_nums [Some 6; None; None; None; None] [] None [] None; CStr (L "dump_stack.part.3");
   CObj KKoopsFrame ko_nums [Some 8; Some 9; None; None; None] [] None [] None; CStr (L "kthread"); CStr (L "ext4");
   CObj KKoopsFrame ko_nums [Some 11; None; None; None; None] [] None [] None; CStr (L "ext4_read.isra.1")].
Definition ko_objs : objects :=
  [Some (1, PyStruct KKoopsStack 0 [Some 1]); Some (1, PyList [2; 3; 4]); Some (1, PyStruct KKoopsFrame 5 []); Some (2, PyStruct KKoopsFrame 7 []); Some (1, PyStruct KKoopsFrame 10 [])].
Definition ko_f1 : entry := (5, Val ko_nums [Some (L "dump_stack.part.3"); None; None; None; None] None [], [5; 6]).
Definition ko_f2 : entry := (7, Val ko_nums [Some (L "kthread"); Some (L "ext4"); None; None; None] None [], [7; 8; 9]).
Definition ko_f3 : entry := (10, Val ko_nums [Some (L "ext4_read.isra.1"); None; None; None; None] None [], [10; 11]).
Definition ko_e (m2 : str) : entry := (0, Val ko_flags [Some (L "3.10"); None; None] (Some [L "ext4"; m2]) [map e_val [ko_f1; ko_f2; ko_f3]], [0; 1; 2; 3; 4; 5; 6; 7; 8; 9; 10; 11]).
Definition ko_fr (name : str) (m : option str) : koops_frame := mk_koops_frame 64 true (Some name) 2 3 m 0 None 0 0 None None.
Definition ko_s (m2 : str) : koops_stacktrace :=
  mk_koops_stacktrace (Some (L "3.10")) (map (fun z => negb (z =? 0)%Z) ko_flags) (Some [L "ext4"; m2]) None
    [ko_fr (L "dump_stack.part.3") None; ko_fr (L "kthread") (Some (L "ext4")); ko_fr (L "ext4_read.isra.1") None] None.
Lemma ko_case p m2 : py_koops ko_objs (ko_heap p m2) 0 1 1 1 [2; 3; 4] None (ko_e m2) [ko_f1; ko_f2; ko_f3] (ko_s m2).
Proof.
  split; [reflexivity|]. split; [lia|]. split; [reflexivity|]. split; [lia|].
  split; [constructor; [exists 0; reflexivity|constructor; [exists 1; reflexivity|constructor; [exists 0; reflexivity|constructor]]]|].
  split; [|split; [repeat constructor; cbn; intuition discriminate|]].
  - exists ko_flags, [Some 1; None; None], p, [Some (L "3.10"); None; None], [1], (Some 2), (Some [L "ext4"; m2]), [2; 3; 4], [].
    split; [reflexivity|]. split; [reflexivity|]. split; [reflexivity|]. split; [repeat constructor|]. split; [econstructor; [reflexivity|repeat constructor]|]. split; [reflexivity|]. split; [reflexivity|].
    split; [|discriminate]. constructor; [exists None|constructor; [exists None|constructor; [exists None|constructor]]].
    + unfold ko_f1. change [5; 6] with (5 :: [6] ++ [] ++ []). eapply own_obj; try reflexivity; repeat constructor.
    + unfold ko_f2. change [7; 8; 9] with (7 :: [8; 9] ++ [] ++ []). eapply own_obj; try reflexivity; repeat constructor.
    + unfold ko_f3. change [10; 11] with (10 :: [11] ++ [] ++ []). eapply own_obj; try reflexivity; repeat constructor.
  - split; [reflexivity|]. split; [now_number|]. split; [now_number|]. split; [now_number|]. split; [reflexivity|]. exists (map e_val [ko_f1; ko_f2; ko_f3]). split; [reflexivity|].
    constructor; [|constructor; [|constructor; [|constructor]]]; members.
Qed.
Lemma koops_thread os h r l m ml items n e es s : py_koops os h r l m ml items n e es s -> py_thread_is os h r KKoopsStack n e es (TKoops s).
Proof.
  intros (Hr & Hm & Hl & Hml & F & U & N & T). destruct m as [|m]; [lia|]. destruct ml as [|ml]; [lia|]. exists KKoopsFrame, l, items, []. split; [exists m; exact Hr|]. split; [split; [exists ml; exact Hl|exact F]|]. tauto.
Qed.
