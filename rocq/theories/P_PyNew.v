(** * C77: creating frames, threads and stack traces in Python. *)
From Verif Require Import Base Types JsonSpec JsonTypesModel JsonTypesSpec JsonReaders TextModel PyParseModel RubyParseModel RubyParseProofs JavaParseModel JavaParseProofs JavaParseProofs2 JsParseModel JsParseProofs KoopsModel
  GdbParseModel GdbParseSpec GdbParseProofs5 GdbLibModel FunsModel AbrtModel HeapModel HeapSpec HeapProofs HeapProofs2 PyModel PySpec PyProofs4 PyAttrModel PyAttrSpec PyBaseModel PyBaseSpec PyReportModel
  PyNewModel PyNewSpec PyNewProofs PyNewProofs2 PyNewProofs3.
Open Scope nat_scope.

(** A frame class called with a text that begins with a frame gives one new object, with one reference, that wraps a new
    structure of that frame; nothing else is created and nothing that existed changes. *)
Theorem C77_frame : forall os h k s f, reads_frame k s f ->
  exists os' h' r e, frame_new (St os h) k (Some s) = Ok (St os' h', Value r) /\ os' = os ++ [Some (1, PyStruct k (e_addr e) [])] /\
    frame_object (length os) os' h' r k e f /\ taken h h' (e_foot e).
Proof. exact frame_new_ok. Qed.
(** Without a text the frame is a blank one; core frames are blank whatever the argument. *)
Theorem C77_frame_blank : forall os h k f, blank_frame k f ->
  exists os' h' r e, frame_new (St os h) k None = Ok (St os' h', Value r) /\ os' = os ++ [Some (1, PyStruct k (e_addr e) [])] /\
    frame_object (length os) os' h' r k e f /\ taken h h' (e_foot e).
Proof. exact frame_blank_ok. Qed.
Theorem C77_core_frame_blank : forall os h arg f, blank_frame KCoreFrame f ->
  exists os' h' r e, frame_new (St os h) KCoreFrame arg = Ok (St os' h', Value r) /\ os' = os ++ [Some (1, PyStruct KCoreFrame (e_addr e) [])] /\
    frame_object (length os) os' h' r KCoreFrame e f /\ taken h h' (e_foot e).
Proof. exact frame_core_ok. Qed.
(** Java, Ruby and JavaScript: every text either begins with a frame or raises ValueError. *)
Theorem C77_frame_total : forall os h k s, In k [KJavaFrame; KRubyFrame; KJsFrame] ->
  (exists f, reads_frame k s f) \/ exists st, frame_new (St os h) k (Some s) = Ok (st, Raise ValueError) /\ mem st = h.
Proof.
  intros os h k s I. assert (I' : In k [KGdbFrame; KJavaFrame; KRubyFrame; KJsFrame]) by (cbn in *; tauto).
  destruct (frame_cases os h k s I') as [R|[N|U]]; [left; exact R|right; rewrite (frame_failed os h k s N); eexists; split; reflexivity|].
  exfalso. cbn [In] in I. destruct I as [<-|[<-|[<-|[]]]]; cbn [frame_new] in U.
  - pose proof (java_frame_not_UB s). destruct (sr_java_frame_parse s) as [[f r]| |]; [|discriminate U|contradiction]. destruct (wrap_made os h (FJava f)) as (a & b & c & d & E & _). cbn in U, E. rewrite E in U. discriminate U.
  - pose proof (frame_not_UB s). destruct (sr_ruby_frame_parse s) as [[f r]| |]; [|discriminate U|contradiction]. destruct (wrap_made os h (FRuby f)) as (a & b & c & d & E & _). cbn in U, E. rewrite E in U. discriminate U.
  - pose proof (js_frame_not_UB s). unfold sr_js_frame_parse in U. destruct (sr_js_frame_parse_v8 s) as [[f r]| |]; [|discriminate U|contradiction]. destruct (wrap_made os h (FJs f)) as (a & b & c & d & E & _). cbn in U, E. rewrite E in U. discriminate U.
Qed.
(** The same for gdb frames, but for the headers that the parser reads beyond (C45). *)
Theorem C77_gdb_frame_total : forall os h s, ~ frame_header_off s ->
  (exists f, reads_frame KGdbFrame s f) \/ exists st, frame_new (St os h) KGdbFrame (Some s) = Ok (st, Raise ValueError) /\ mem st = h.
Proof.
  intros os h s O. destruct (frame_cases os h KGdbFrame s (or_introl eq_refl)) as [R|[N|U]]; [left; exact R|right; rewrite (frame_failed os h _ s N); eexists; split; reflexivity|].
  exfalso. cbn [frame_new] in U. destruct (sr_gdb_frame_parse s) as [[f r]| |] eqn:E; [|discriminate U|destruct (frame_exact s) as (_ & H); apply O, H; exact E].
  destruct (wrap_made os h (FGdb f)) as (a & b & c & d & E' & _). cbn in U, E'. rewrite E' in U. discriminate U.
Qed.
(** A failed constructor should leave nothing behind; the object created first is never released. *)
Theorem C77_frame_leak_refuted : forall os h k s, no_frame k s -> frame_new (St os h) k (Some s) = Ok (St (os ++ [Some (1, PyOther)]) h, Raise ValueError).
Proof. exact frame_failed. Qed.
(** The constructor of kernel oops frames does not notice that the text is no frame: the object it returns has no
    structure, and its methods go wrong. *)
Theorem C77_koops_frame_refuted : forall os h s, sr_koops_frame_parse s = None ->
  exists st r a, frame_new (St os h) KKoopsFrame (Some s) = Ok (st, Value r) /\ object (objs st) r 1 (PyStruct KKoopsFrame a []) /\
    (forall n e, e_addr e = a -> ~ own (mem st) KKoopsFrame n e) /\ frame_short_string st r = UB.
Proof.
  intros os h s E. rewrite (koops_null os h s E). eexists _, _, (length h). split; [reflexivity|]. split; [apply PyProofs4.object_last|]. cbn [mem objs].
  assert (H : nth_error (h ++ [CFree]) (length h) = Some CFree) by (rewrite nth_error_app2, Nat.sub_diag by lia; reflexivity). split.
  - intros n e Ha O. pose proof (own_kind _ _ _ _ O) as K. unfold kind_at, get in K. rewrite Ha, H in K. discriminate K.
  - unfold frame_short_string, struct_at. rewrite (PyProofs.obj_ok _ _ 1 (PyStruct KKoopsFrame (length h) [])) by apply PyProofs4.object_last. cbn [bind mem].
    unfold load_frame, kind_at, get. rewrite H. reflexivity.
Qed.
(** SharedLib() *)
Theorem C77_sharedlib : forall os h, exists h' e, py_sharedlib_new (St os h) = Ok (St (os ++ [Some (1, PyStruct KGdbLib (e_addr e) [])]) h', Value (length os)) /\
  taken h h' (e_foot e) /\ own h' KGdbLib None e /\ is_lib (e_val e) (mk_gdb_sharedlib ulong_max ulong_max 2 None).
Proof. exact sharedlib_new_ok. Qed.

(** A thread class called with a text that begins with a thread: a new object with a new list of new frame objects, and a
    new structure of that thread, whose frames the objects wrap. *)
Theorem C77_thread : forall os h k s o t, reads_thread k s o t ->
  exists os' h' r e, thread_new (St os h) k (Some s) o = Ok (St os' h', Value r) /\ grown os os' /\ thread_object (length os) os' h' r k e t /\
    rest_of_thread (e_val e) t /\ taken h h' (e_foot e).
Proof. exact thread_new_ok. Qed.
Theorem C77_thread_blank : forall os h k o t, blank_thread k t ->
  exists os' h' r e, thread_new (St os h) k None o = Ok (St os' h', Value r) /\ grown os os' /\ thread_object (length os) os' h' r k e t /\
    rest_of_thread (e_val e) t /\ taken h h' (e_foot e).
Proof. exact thread_blank_ok. Qed.
Theorem C77_core_thread_blank : forall os h arg o t, blank_thread KCoreThread t ->
  exists os' h' r e, thread_new (St os h) KCoreThread arg o = Ok (St os' h', Value r) /\ grown os os' /\ thread_object (length os) os' h' r KCoreThread e t /\
    rest_of_thread (e_val e) t /\ taken h h' (e_foot e).
Proof. exact thread_core_ok. Qed.
Theorem C77_thread_leak_refuted : forall os h k s o, no_thread k s o -> thread_new (St os h) k (Some s) o = Ok (St (os ++ [Some (1, PyOther)]) h, Raise ValueError).
Proof. exact thread_failed. Qed.

(** A stack trace class called with a text that is a stack trace: a new object, lists of new objects for its threads and
    frames, and a new structure of that stack trace; the crash thread of a core stack trace is that of the text. *)
Theorem C77_stack : forall none tokener os h k s x, reads_stack tokener k s x ->
  exists os' h' r e, stack_new none tokener (St os h) k (Some s) = Ok (St os' h', Value r) /\ grown os os' /\ stack_is_new (length os) os' h' none r k e x /\ taken h h' (e_foot e).
Proof. exact stack_new_ok. Qed.
Theorem C77_stack_blank : forall none tokener os h k x, blank_stack k x ->
  exists os' h' r e, stack_new none tokener (St os h) k None = Ok (St os' h', Value r) /\ grown os os' /\ stack_is_new (length os) os' h' none r k e x /\ taken h h' (e_foot e).
Proof. exact stack_blank_ok. Qed.
(** A text that is none raises ValueError and leaves everything as it was, except for gdb. *)
Theorem C77_stack_failed : forall none tokener os h k s, no_stack tokener k s -> stack_new none tokener (St os h) k (Some s) = Ok (St os h, Raise ValueError).
Proof. exact stack_failed. Qed.
Theorem C77_gdb_leak_refuted : forall none tokener os h s, sr_gdb_stacktrace_parse s = Fail ->
  stack_new none tokener (St os h) KGdbStack (Some s) = Ok (St (os ++ [Some (1, PyOther)]) h, Raise ValueError).
Proof. exact gdb_failed. Qed.
(** Core, Java, Ruby and JavaScript: there is no third case. *)
Theorem C77_stack_total : forall tokener k s, In k [KCoreStack; KJavaStack; KRubyStack; KJsStack] -> (exists x, reads_stack tokener k s x) \/ no_stack tokener k s.
Proof.
  intros tokener k s I. unfold no_stack. cbn [In] in I. destruct I as [<-|[<-|[<-|[<-|[]]]]].
  - destruct (tokener s) as [root|] eqn:T; [|right; left; split; [reflexivity|left; reflexivity]]. destruct (core_stacktrace_from_json root) as [x| |] eqn:E; [| |destruct (core_not_UB _ E)].
    + left. exists (SCore x). split; [reflexivity|]. exists root. split; [exact T|]. apply core_reads. exact E.
    + right. left. split; [reflexivity|]. right. exists root. split; [reflexivity|]. intros x R. apply core_reads in R. congruence.
  - destruct (sr_java_stacktrace_parse s) as [[x r]| |] eqn:E; [left; exists (SJava x); split; eauto|right; tauto|].
    exfalso. unfold sr_java_stacktrace_parse in E. pose proof (java_thread_not_UB s). destruct (sr_java_thread_parse s) as [[t r]| |]; [discriminate|discriminate|contradiction].
  - destruct (sr_ruby_stacktrace_parse s) as [[x r]| |] eqn:E; [left; exists (SRuby x); split; eauto|right; tauto|destruct (ruby_not_UB s E)].
  - destruct (sr_js_stacktrace_parse s) as [[x r]| |] eqn:E; [left; exists (SJs x); split; eauto|right; tauto|destruct (js_not_UB s E)].
Qed.

(** from_json of a text that the reader of the type accepts: as above, and what was created on the way is freed again. *)
Theorem C77_from_json : forall none tokener os h k text x, reads_json tokener k text x ->
  exists os' h' r e, py_from_json none tokener (St os h) k text = Ok (St os' h', Value r) /\ grown os os' /\ stack_is_new (length os) os' h' none r k e x /\ taken_freed h h' (e_foot e).
Proof. exact from_json_ok. Qed.
(** Of any other text it raises ValueError, and so does every text for gdb; memory is as before, but an object without
    structure stays behind, for gdb with the list of its libraries. *)
Theorem C77_from_json_leak_refuted : forall none tokener os h k text, no_json tokener k text ->
  exists h', length h' = S (length h) /\ (forall y, y < length h -> nth_error h' y = nth_error h y) /\ freed h' (length h) /\
    py_from_json none tokener (St os h) k text = Ok (St (os ++ None :: match k with KGdbStack => [Some (1, PyList [])] | _ => [] end ++ [Some (1, PyOther)]) h', Raise ValueError).
Proof. exact from_json_failed. Qed.
(** There is no third case, but for the kernel oopses with a member "modules" that the reader cannot hold (C36). *)
Theorem C77_from_json_total : forall none tokener os h k text, In k [KCoreStack; KJavaStack; KPythonStack; KRubyStack; KJsStack; KKoopsStack] ->
  (exists x, reads_json tokener k text x) \/ no_json tokener k text \/ k = KKoopsStack /\ py_from_json none tokener (St os h) k text = UB.
Proof. exact from_json_cases. Qed.

(** ** Cases *)
Example reads_1 : reads_frame KRubyFrame (L "/home/joe/x.rb:1:in `f': m") (FRuby (mk_ruby_frame (Some (L "/home/anonymized/x.rb")) 1 false (Some (L "f")) 0 0)).
Proof. split; [reflexivity|]. exists (L ": m"). vm_compute. reflexivity. Qed.
Example reads_2 : reads_frame KGdbFrame (L "#1  0x00007f in main () at a.c:5
") (FGdb (mk_gdb_frame (Some (L "main")) None 1 (Some (L "a.c")) 5 false 127 None)).
Proof. split; [reflexivity|]. eexists. vm_compute. reflexivity. Qed.
Example reads_3 : no_frame KJsFrame (L "at )") /\ no_frame KRubyFrame (L "x.rb:in `f'") /\ no_frame KGdbFrame (L "x") /\ no_frame KJavaFrame (L "x") /\ sr_koops_frame_parse (L "x") = None.
Proof.
  split; [right; right; right; right; split; [reflexivity|vm_compute; reflexivity]|]. split; [right; right; right; left; split; [reflexivity|vm_compute; reflexivity]|].
  split; [left; split; [reflexivity|vm_compute; reflexivity]|]. split; [right; left; split; [reflexivity|vm_compute; reflexivity]|vm_compute; reflexivity].
Qed.
Example blank_1 : blank_frame KCoreFrame (FCore core_frame_new) /\ blank_frame KGdbFrame (FGdb gdb_frame_new) /\ blank_thread KGdbThread (TGdb gdb_thread_new) /\ blank_stack KKoopsStack (SKoops koops_stacktrace_new).
Proof. repeat split. Qed.
Example reads_4 : exists t u, reads_thread KGdbThread (L "Thread 1 (LWP 10):
#0  f () at a.c:5
#1  g () at a.c:6
") 0 (TGdb t) /\ length (gt_frames t) = 2 /\ reads_thread KGdbThread (L "f" ++ nl :: L "g" ++ nl :: []) 1 (TGdb u) /\ length (gt_frames u) = 2.
Proof.
  eexists _, _. split; [split; [reflexivity|left; split; [reflexivity|eexists; vm_compute; reflexivity]]|]. split; [reflexivity|].
  split; [split; [reflexivity|right; split; [discriminate|vm_compute; reflexivity]]|reflexivity].
Qed.
Example reads_5 : no_thread KGdbThread (L "Thrad") 0 /\ no_thread KJavaThread [] 0.
Proof. split; [left; split; [reflexivity|split; [reflexivity|vm_compute; reflexivity]]|right; split; [reflexivity|vm_compute; reflexivity]]. Qed.
(* a core stack trace of two threads, the second of which crashed *)
Definition core_json : json :=
  JObj [(L "signal", JInt 11); (L "stacktrace", JArr [JObj [(L "frames", JArr [JObj []])]; JObj [(L "crash_thread", JBool true); (L "frames", JArr [JObj []; JObj []])]])].
Example reads_6 : exists x, reads_stack (fun _ => Some core_json) KCoreStack (L "{}") (SCore x) /\ reads_json (fun _ => Some core_json) KCoreStack (L "{}") (SCore x) /\
  cs_crash_thread x = Some 1 /\ map (fun t => length (ct_frames t)) (cs_threads x) = [1; 2].
Proof.
  assert (E : exists x, core_stacktrace_from_json core_json = Ok x /\ cs_crash_thread x = Some 1 /\ map (fun t => length (ct_frames t)) (cs_threads x) = [1; 2]) by (eexists; split; [vm_compute; reflexivity|split; reflexivity]).
  destruct E as (x & E & C & M). exists x. split; [split; [reflexivity|]; exists core_json; split; [reflexivity|]; apply core_reads; exact E|]. split; [exists core_json; split; [reflexivity|split; [reflexivity|exact E]]|]. auto.
Qed.
Example reads_7 : no_stack (fun _ => None) KCoreStack (L "{") /\ no_stack (fun _ => None) KJsStack (L "x") /\ no_json (fun _ => Some (JArr [])) KRubyStack (L "[]") /\ no_json (fun _ => None) KGdbStack (L "{}") /\
  sr_gdb_stacktrace_parse (L "x") = Fail.
Proof.
  split; [left; split; [reflexivity|left; reflexivity]|]. split; [right; right; right; right; left; split; [reflexivity|vm_compute; reflexivity]|].
  split; [right; split; [cbn; tauto|right; exists (JArr []); split; [reflexivity|right; right; right; left; split; [reflexivity|vm_compute; reflexivity]]]|]. split; [left; reflexivity|vm_compute; reflexivity].
Qed.
(* the two examples run: objects, and what they wrap *)
Example runs_1 : exists st r, stack_new 0 (fun _ => Some core_json) (St [Some (1, PyOther)] []) KCoreStack (Some (L "{}")) = Ok (st, Value r) /\ length (objs st) = 10 /\ r = 9 /\ length (mem st) = 6.
Proof. eexists _, _. split; [vm_compute; reflexivity|]. repeat split. Qed.
Example runs_2 : exists st r, py_from_json 0 (fun _ => Some core_json) (St [Some (1, PyOther)] []) KCoreStack (L "{}") = Ok (st, Value r) /\ r = 2 /\ nth_error (mem st) 0 = Some CFree /\ length (mem st) = 7.
Proof. eexists _, _. split; [vm_compute; reflexivity|]. repeat split. Qed.

Print Assumptions C77_frame.
Print Assumptions C77_frame_blank.
Print Assumptions C77_core_frame_blank.
Print Assumptions C77_frame_total.
Print Assumptions C77_gdb_frame_total.
Print Assumptions C77_frame_leak_refuted.
Print Assumptions C77_koops_frame_refuted.
Print Assumptions C77_sharedlib.
Print Assumptions C77_thread.
Print Assumptions C77_thread_blank.
Print Assumptions C77_core_thread_blank.
Print Assumptions C77_thread_leak_refuted.
Print Assumptions C77_stack.
Print Assumptions C77_stack_blank.
Print Assumptions C77_stack_failed.
Print Assumptions C77_gdb_leak_refuted.
Print Assumptions C77_stack_total.
Print Assumptions C77_from_json.
Print Assumptions C77_from_json_leak_refuted.
Print Assumptions C77_from_json_total.
