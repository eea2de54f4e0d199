(** * Property C79: the methods that only some Python types have. *)
From Coq Require Import QArith.
From Verif Require Import Base Types NormModel NormSpec CrashModel CrashSpec FunsModel TextModel HeapModel HeapSpec PyModel PySpec PyAttrModel PyAttrSpec PyBaseModel PyBaseSpec
  PyMethModel PyMethSpec PyMethProofs PyMethProofs2 PyMethProofs3 PyMethProofs4.
Open Scope nat_scope.

(** normalize of a kernel oops: names are cut and listed frames dropped, with whatever frames its Python list has.  The
    object gets a new list of new frame objects, everything else about the oops stays.  The old list loses one reference;
    frame objects that someone else holds live on with the frames they had, those nobody holds go with their memory.
    Nothing else changes, and no memory is lost: what was allocated is a frame of the new list or has been freed. *)
Theorem C79_normalize : forall os h r l m ml items n e es s, py_koops os h r l m ml items n e es s ->
  exists os' h' l' items' e' es' gs, koops_normalize (St os h) r = Ok (St os' h', Value tt) /\ normalized_koops (ks_frames s) gs /\
    e_addr e' = e_addr e /\ numbers (e_val e') = numbers (e_val e) /\ py_koops os' h' r l' m 1 items' n e' es' (with_frames s gs) /\
    own h' KKoopsStack n e' /\ new_list (length os) os' l' KKoopsFrame items' es' /\ (forall x, In x (foot es') -> length h <= x) /\
    gave_up os os' l ml items /\
    (forall x, x < length os -> x <> r -> x <> l -> (ml = 1 -> ~ In x items) -> nth_error os' x = nth_error os x) /\
    (forall i f, In (i, f) (combine items es) -> (ml = 1 -> forall b, ~ object os i 1 b) -> exists k, own h' KKoopsFrame k f) /\
    (forall x, x < length h -> ~ In x (link_cells e es) -> (ml = 1 -> ~ In x (dying os (combine items es))) -> nth_error h' x = nth_error h x) /\
    (forall x, ml = 1 -> In x (dying os (combine items es)) -> freed h' x) /\
    (forall x, length h <= x < length h' -> In x (foot es') \/ freed h' x).
Proof. exact koops_normalize_py. Qed.
(** With something else among the frames it raises TypeError and writes nothing but links. *)
Theorem C79_normalize_foreign : forall os h r c es, foreign os h r KKoopsStack c es ->
  exists h', koops_normalize (St os h) r = Ok (St os h', Raise TypeError) /\ same_outside (c :: map e_addr es) h h' /\ length h' = length h.
Proof. exact koops_foreign. Qed.

(** The modules of a kernel oops are a list of their names, empty if there is none. *)
Theorem C79_modules : forall os h r n e es s, py_thread_is os h r KKoopsStack n e es (TKoops s) ->
  (forall m, In m (match ks_modules s with Some l => l | None => [] end) -> exists t, utf8 t m) ->
  exists ts, get_modules (St os h) r = Ok (St os h, Value ts) /\ Forall2 utf8 ts (match ks_modules s with Some l => l | None => [] end).
Proof. exact get_modules_ok. Qed.
(** One whose name is not UTF-8 makes it return a list and set an exception, which Python reports as an error of its own. *)
Theorem C79_modules_refuted : forall os h r n e es s m, py_thread_is os h r KKoopsStack n e es (TKoops s) ->
  In m (match ks_modules s with Some l => l | None => [] end) -> (forall t, ~ utf8 t m) ->
  exists ts, get_modules (St os h) r = Ok (St os h, ValueAnd ts SystemError).
Proof. exact get_modules_bad. Qed.
(** The taint flags are a dictionary from each flag's name to whether its member is set. *)
Theorem C79_taint_flags : forall os h r n e es s zs, py_thread_is os h r KKoopsStack n e es (TKoops s) -> numbers (e_val e) = zs -> length zs = length flag_names ->
  exists bs, get_taint_flags (St os h) r = Ok (St os h, Value (combine flag_names bs)) /\ Forall2 (fun b z => b = true <-> z <> 0%Z) bs zs.
Proof. exact taint_flags_ok. Qed.

(** The crash thread of a single-threaded stack trace is the object itself. *)
Theorem C79_single_crash : forall os h r n b, object os r (S n) b -> exists os', single_get_crash (St os h) r = Ok (St os' h, Value r) /\
  object os' r (S (S n)) b /\ length os' = length os /\ (forall x, x <> r -> nth_error os' x = nth_error os x).
Proof. exact single_crash_ok. Qed.

(** dup of a frame: a new object with its own copy of the frame; the frame, other objects and other memory stay. *)
Theorem C79_frame_dup : forall os h r k n e at_, alive os r (PyStruct k (e_addr e) at_) -> own h k n e -> separate (e_foot e) ->
  exists os' h' d, frame_dup (St os h) r = Ok (St os' h', Value (length os)) /\ os' = os ++ [Some (1, PyStruct k (e_addr d) [])] /\ own h' k None d /\ e_val d = e_val e /\
    separate (e_foot d) /\ (forall x, In x (e_foot d) <-> length h <= x < length h') /\ (forall x, x < length h -> nth_error h' x = nth_error h x).
Proof. exact frame_dup_ok. Qed.
(** calls_func_in_file: the function has that name and the name of its file contains the other. *)
Theorem C79_calls_in_file : forall os h r n e f name file, py_frame os h r KGdbFrame n e (FGdb f) ->
  exists z, calls_func_in_file (St os h) r name file = Ok (St os h, Value z) /\ (z = 0 \/ z = 1)%Z /\ (z = 1%Z <-> calls_in f name file).
Proof. exact calls_in_file_ok. Qed.
(** calls_func says no whatever the frame calls. *)
Theorem C79_calls_refuted : forall os h r n e f name, py_frame os h r KGdbFrame n e (FGdb f) -> calls f name ->
  calls_func (St os h) r name = Ok (St os h, Value 0%Z).
Proof. intros os h r n e f name P _. exact (calls_never os h r n e f name P). Qed.

(** quality_counts and quality of gdb and java threads: over the frames of the Python list. *)
Theorem C79_quality_counts : forall os h r k n e es t, py_thread_is os h r k n e es t -> k = KGdbThread \/ k = KJavaThread ->
  exists h' ok all, thread_quality_counts (St os h) r = Ok (St os h', Value (ok, all)) /\ thread_known t ok all /\
    own h' k n e /\ same_outside (link_cells e es) h h' /\ length h' = length h.
Proof. exact quality_counts_ok. Qed.
Theorem C79_quality : forall os h r k n e es t, py_thread_is os h r k n e es t -> k = KGdbThread \/ k = KJavaThread ->
  exists h' q, thread_quality (St os h) r = Ok (St os h', Value q) /\ thread_proportion t q /\
    own h' k n e /\ same_outside (link_cells e es) h h' /\ length h' = length h.
Proof. exact quality_ok. Qed.
Theorem C79_quality_foreign : forall os h r k c es, foreign os h r k c es ->
  exists h', thread_quality_counts (St os h) r = Ok (St os h', Raise TypeError) /\ thread_quality (St os h) r = Ok (St os h', Raise TypeError) /\
    same_outside (c :: map e_addr es) h h' /\ length h' = length h.
Proof. exact quality_foreign. Qed.
(** format_funs: a line for each frame with a function name, if the C thread has the frames of the list. *)
Theorem C79_format_funs : forall os h r k n e t at_, alive os r (PyStruct k (e_addr e) at_) -> own h k n e -> separate (e_foot e) ->
  is_thread k (e_val e) t -> k = KGdbThread \/ k = KJavaThread ->
  exists a out, thread_format_funs (St os h) r = Ok (St os h, a) /\ thread_lines t out /\ gives_text a out.
Proof. exact format_funs_ok. Qed.
(** It does not look at the list: frames assigned from Python are not shown, and if those it had are gone it reads freed
    memory. *)
Theorem C79_format_funs_stale_refuted : exists os h r e es t, py_thread_is os h r KGdbThread None e es t /\
  thread_format_funs (St os h) r = Ok (St os h, Value []) /\ forall out, thread_lines t out -> out <> [].
Proof.
  exists gt_objs, (gt_heap None), 0, gt_e, [gt_f], gt_t. split; [apply gt_case|]. split; [reflexivity|].
  intros out (ls & F & ->). inversion F as [|? l ? ls' Hl F']; subst. inversion F'; subst. cbn in Hl. subst l. discriminate.
Qed.
Theorem C79_format_funs_refuted : exists os h r e es t empty st1 st2 x, py_thread_is os h r KGdbThread None e es t /\ alive os empty (PyList []) /\
  thread_quality_counts (St os h) r = Ok (st1, Value x) /\ set_attr st1 r 0 empty = Ok st2 /\ thread_format_funs st2 r = UB.
Proof.
  exists gt_objs, (gt_heap None), 0, gt_e, [gt_f], gt_t, 3. do 3 eexists. split; [apply gt_case|]. split; [exists 0; reflexivity|].
  split; [vm_compute; reflexivity|]. split; [vm_compute; reflexivity|]. vm_compute. reflexivity.
Qed.

(** A kernel oops of three frames: the first is dropped after its name is cut, the second stays because it belongs to a
    module, the third loses its suffix.  The second frame object is held elsewhere. *)
Example C79_koops_case : py_koops ko_objs (ko_heap None (L "jbd2")) 0 1 1 1 [2; 3; 4] None (ko_e (L "jbd2")) [ko_f1; ko_f2; ko_f3] (ko_s (L "jbd2")) /\
  normalized_koops (ks_frames (ko_s (L "jbd2"))) [ko_fr (L "kthread") (Some (L "ext4")); ko_fr (L "ext4_read") None] /\
  object ko_objs 3 2 (PyStruct KKoopsFrame 7 []) /\ length (numbers (e_val (ko_e (L "jbd2")))) = length flag_names /\
  py_thread_is ko_objs (ko_heap None (L "jbd2")) 0 KKoopsStack None (ko_e (L "jbd2")) [ko_f1; ko_f2; ko_f3] (TKoops (ko_s (L "jbd2"))).
Proof.
  split; [apply ko_case|]. split; [|split; [reflexivity|split; [reflexivity|eapply koops_thread; apply ko_case]]].
  exists [ko_fr (L "dump_stack") None; ko_fr (L "kthread") (Some (L "ext4")); ko_fr (L "ext4_read") None]. split.
  - constructor; [|constructor; [|constructor; [|constructor]]]; (split; [|repeat split]).
    + exists (L ".part.3"), (L "dump_stack"). left. split; [reflexivity|]. split; [reflexivity|]. split; [cbn; intuition discriminate|]. right. eexists. reflexivity.
    + exists [], (L "kthread"). left. split; [reflexivity|]. split; [reflexivity|]. split; [cbn; intuition discriminate|]. left. reflexivity.
    + exists (L ".isra.1"), (L "ext4_read"). left. split; [reflexivity|]. split; [reflexivity|]. split; [cbn; intuition discriminate|]. right. eexists. reflexivity.
  - apply kept_no; [intros H; apply H; split; [reflexivity|]; eexists; split; [reflexivity|]; vm_compute; tauto|].
    apply kept_yes; [intros [H _]; discriminate H|]. apply kept_yes; [|constructor]. intros (_ & nm & E & I). injection E as <-. vm_compute in I. repeat destruct I as [I|I]; try discriminate I. exact I.
Qed.
Example C79_modules_case : py_thread_is ko_objs (ko_heap None [Ascii.ascii_of_nat 255]) 0 KKoopsStack None (ko_e [Ascii.ascii_of_nat 255]) [ko_f1; ko_f2; ko_f3] (TKoops (ko_s [Ascii.ascii_of_nat 255])) /\
  get_modules (St ko_objs (ko_heap None (L "jbd2"))) 0 = Ok (St ko_objs (ko_heap None (L "jbd2")), Value [[101; 120; 116; 52]; [106; 98; 100; 50]]%Z) /\
  (exists ts, get_modules (St ko_objs (ko_heap None [Ascii.ascii_of_nat 255])) 0 = Ok (St ko_objs (ko_heap None [Ascii.ascii_of_nat 255]), ValueAnd ts SystemError)).
Proof. split; [eapply koops_thread; apply ko_case|]. split; [vm_compute; reflexivity|]. eexists. vm_compute. reflexivity. Qed.
Example C79_thread_case : py_thread_is gt_objs (gt_heap (Some 1)) 0 KGdbThread None gt_e [gt_f] gt_t /\ py_frame gt_objs (gt_heap (Some 1)) 2 KGdbFrame None gt_f (FGdb gt_frame) /\
  calls gt_frame (L "main") /\ calls_in gt_frame (L "main") (L "a.c") /\ separate (e_foot gt_f) /\ thread_known gt_t 1 1.
Proof.
  split; [apply gt_case|]. split; [apply gt_frame_case|]. split; [reflexivity|]. split; [split; [reflexivity|]; exists (L "src/a.c"); split; [reflexivity|]; exists (L "src/"), []; reflexivity|].
  split; [repeat constructor; cbn; intuition discriminate|]. split; [|reflexivity]. apply (counted_yes gdb_known gt_frame [] 0); [|constructor].
  right. exists (L "main"), (L "src/a.c"). split; [reflexivity|]. split; [discriminate|]. split; [reflexivity|discriminate].
Qed.
Example C79_foreign_case : foreign [Some (1, PyStruct KGdbThread 0 [Some 1]); Some (1, PyList [2; 3]); Some (1, PyStruct KGdbFrame 1 []); Some (1, PyList [])] (gt_heap None) 0 KGdbThread 0 [gt_f].
Proof. exact gt_foreign. Qed.
Print Assumptions C79_normalize.
Print Assumptions C79_normalize_foreign.
Print Assumptions C79_modules.
Print Assumptions C79_modules_refuted.
Print Assumptions C79_taint_flags.
Print Assumptions C79_single_crash.
Print Assumptions C79_frame_dup.
Print Assumptions C79_calls_in_file.
Print Assumptions C79_calls_refuted.
Print Assumptions C79_quality_counts.
Print Assumptions C79_quality.
Print Assumptions C79_quality_foreign.
Print Assumptions C79_format_funs.
Print Assumptions C79_format_funs_stale_refuted.
Print Assumptions C79_format_funs_refuted.
