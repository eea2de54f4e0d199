(** * C78: str() of the Python objects. *)
From Verif Require Import Base Types JsonSpec TextModel RubyParseModel RubyParseSpec JavaParseModel JavaParseSpec JsParseModel JsParseSpec PyParseModel KoopsModel RpmModel
  HeapModel HeapSpec PyModel PySpec PyAttrModel PyAttrSpec PyBaseModel PyBaseSpec PyBaseProofs2 PyBaseProofs4 PyNewModel PyNewSpec PyNewProofs PyNewProofs2
  PyStrModel PyStrSpec PyStrProofs PyStrProofs2.
Open Scope Z_scope.

(** str() of a frame is the text of its members described by [frame_pieces]; nothing changes. *)
Theorem C78_frame : forall os h r k n e f, py_frame os h r k n e f -> c_numbers f ->
  exists s a, says (frame_pieces f) s /\ py_str (St os h) r = Ok (St os h, a) /\ gives_text a s.
Proof. exact str_frame_ok. Qed.
(** str() of a thread or stack trace names it and counts the items of its list. *)
Theorem C78_thread : forall os h r k n e es t, py_thread_is os h r k n e es t -> thread_numbers t ->
  exists s a, says (thread_pieces t ++ counted (length (sr_thread_frames t)) (L " frames")) s /\ py_str (St os h) r = Ok (St os h, a) /\ gives_text a s.
Proof. exact str_thread_ok. Qed.
Theorem C78_stack : forall os h r k n e ts s, py_stack_is os h r k n e ts s ->
  exists x a, says (T (stack_name k) :: counted (thread_count s) (L " threads")) x /\ py_str (St os h) r = Ok (St os h, a) /\ gives_text a x.
Proof. exact str_multi_ok. Qed.
Theorem C78_gdb_stack : forall os h r n e ts items libs s, py_gdb_is os h r n e ts items libs s ->
  exists x a, says (T (L "Stacktrace") :: counted (length (gs_threads s)) (L " threads")) x /\ py_str (St os h) r = Ok (St os h, a) /\ gives_text a x.
Proof. exact str_gdb_ok. Qed.
(** Whatever the list contains. *)
Theorem C78_stack_items : forall os h r k c l at_ items, In k [KCoreStack; KJavaStack; KGdbStack] -> alive os r (PyStruct k c (Some l :: at_)) -> alive os l (PyList items) ->
  exists s a, says (T (stack_name k) :: counted (length items) (L " threads")) s /\ py_str (St os h) r = Ok (St os h, a) /\ gives_text a s.
Proof. exact str_stack_ok. Qed.
(** Packages, operating systems and shared libraries. *)
Theorem C78_package : forall os h r n e at_ name epoch version release architecture, alive os r (PyStruct KRpm (e_addr e) at_) -> own h KRpm n e ->
  is_text KRpm (e_val e) "name" name -> is_number KRpm (e_val e) "epoch" epoch -> is_text KRpm (e_val e) "version" version ->
  is_text KRpm (e_val e) "release" release -> is_text KRpm (e_val e) "architecture" architecture -> u32 epoch ->
  exists s a, says (rpm_pieces name epoch version release architecture) s /\ py_str (St os h) r = Ok (St os h, a) /\ gives_text a s.
Proof.
  intros os h r n e at_ name epoch version release architecture A O H1 H2 H3 H4 H5 [U _]. eexists _, _. split; [apply rpm_pieces_ok; exact U|].
  split; [exact (str_rpm_is _ _ _ _ _ _ _ _ _ _ _ A O H1 H2 H3 H4 H5)|apply py_string_gives].
Qed.
Theorem C78_system : forall os h r n e at_ name version architecture cpe, alive os r (PyStruct KOs (e_addr e) at_) -> own h KOs n e ->
  is_text KOs (e_val e) "name" name -> is_text KOs (e_val e) "version" version -> is_text KOs (e_val e) "architecture" architecture -> is_text KOs (e_val e) "cpe" cpe ->
  exists s a, says (os_pieces name version architecture cpe) s /\ py_str (St os h) r = Ok (St os h, a) /\ gives_text a s.
Proof.
  intros os h r n e at_ name version architecture cpe A O H1 H2 H3 H4. eexists _, _. split; [apply os_pieces_ok|].
  split; [exact (str_os_is _ _ _ _ _ _ _ _ _ _ A O H1 H2 H3 H4)|apply py_string_gives].
Qed.
Theorem C78_library : forall os h r n e at_ l, alive os r (PyStruct KGdbLib (e_addr e) at_) -> own h KGdbLib n e -> is_lib (e_val e) l ->
  exists a, py_str (St os h) r = Ok (St os h, a) /\ gives_text a (match gl_soname l with Some s => s | None => L "Unknown shared library" end).
Proof. intros os h r n e at_ l A O I. eexists. split; [exact (str_lib_is _ _ _ _ _ _ _ A O I)|apply py_string_gives]. Qed.

(** str() of a Ruby, JavaScript or Java frame, given to the constructor, makes a new frame equal to the first; which frames
    those are is said by the conditions of C40, C41 and C43 and by what str() leaves out. *)
Theorem C78_ruby_back : forall os h r n e f file name, py_frame os h r KRubyFrame n e (FRuby f) -> ruby_showable f file name ->
  0 < rf_file_line f < 2 ^ 31 -> rf_block_level f < 2 ^ 31 ->
  exists s a os' h' r' e', py_str (St os h) r = Ok (St os h, a) /\ gives_text a s /\
    frame_new (St os h) KRubyFrame (Some s) = Ok (St os' h', Value r') /\ frame_object (length os) os' h' r' KRubyFrame e' (FRuby f).
Proof.
  intros os h r n e f file name P S H1 H2. destruct (frame_new_ok os h _ _ _ (ruby_back f file name S H1 H2)) as (os' & h' & r' & e' & E & _ & F & _).
  eexists _, _, os', h', r', e'. split; [exact (str_frame_is _ _ _ _ _ _ _ P)|]. split; [apply py_string_gives|]. split; [exact E|exact F].
Qed.
Theorem C78_js_back : forall os h r n e f, py_frame os h r KJsFrame n e (FJs f) -> js_showable f -> jf_file_line f < 2 ^ 31 -> jf_line_column f < 2 ^ 31 ->
  exists s a os' h' r' e', py_str (St os h) r = Ok (St os h, a) /\ gives_text a s /\
    frame_new (St os h) KJsFrame (Some s) = Ok (St os' h', Value r') /\ frame_object (length os) os' h' r' KJsFrame e' (FJs f).
Proof.
  intros os h r n e f P S H1 H2. destruct (frame_new_ok os h _ _ _ (js_back f S H1 H2)) as (os' & h' & r' & e' & E & _ & F & _).
  eexists _, _, os', h', r', e'. split; [exact (str_frame_is _ _ _ _ _ _ _ P)|]. split; [apply py_string_gives|]. split; [exact E|exact F].
Qed.
Theorem C78_java_back : forall os h r n e f name, py_frame os h r KJavaFrame n e (FJava f) -> java_showable f -> vf_class_path f = None -> vf_name f = Some name ->
  vf_file_line f < 2 ^ 31 -> (vf_is_native f = true -> vf_file_line f = 0) -> (vf_is_native f = false -> vf_file_name f <> None) ->
  exists s a os' h' r' e', py_str (St os h) r = Ok (St os h, a) /\ gives_text a s /\
    frame_new (St os h) KJavaFrame (Some s) = Ok (St os' h', Value r') /\ frame_object (length os) os' h' r' KJavaFrame e' (FJava f).
Proof.
  intros os h r n e f name P S H1 H2 H3 H4 H5. destruct (frame_new_ok os h _ _ _ (java_back f name S H1 H2 H3 H4 H5)) as (os' & h' & r' & e' & E & _ & F & _).
  eexists _, _, os', h', r', e'. split; [exact (str_frame_is _ _ _ _ _ _ _ P)|]. split; [apply py_string_gives|]. split; [exact E|exact F].
Qed.
(** str() of a package is read by the parser of package names. *)
Theorem C78_package_back : forall os h r n e at_ name epoch version release architecture, alive os r (PyStruct KRpm (e_addr e) at_) -> own h KRpm n e ->
  is_text KRpm (e_val e) "name" (Some name) -> is_number KRpm (e_val e) "epoch" epoch -> is_text KRpm (e_val e) "version" (Some version) ->
  is_text KRpm (e_val e) "release" (Some release) -> is_text KRpm (e_val e) "architecture" (Some architecture) -> u32 epoch ->
  name <> [] -> version <> [] -> release <> [] -> (epoch = 0 -> ~ In ":"%char version) ->
  ~ In "-"%char version -> ~ In "-"%char release -> ~ In "-"%char architecture -> ~ In "."%char architecture ->
  exists s a, py_str (St os h) r = Ok (St os h, a) /\ gives_text a s /\ sr_rpm_package_parse_nevra s = Accepted name (Z.to_N epoch) version release architecture.
Proof.
  intros os h r n e at_ name epoch version release architecture A O H1 H2 H3 H4 H5 U N1 N2 N3 N4 N5 N6 N7 N8. eexists _, _.
  split; [exact (str_rpm_is _ _ _ _ _ _ _ _ _ _ _ A O H1 H2 H3 H4 H5)|]. split; [apply py_string_gives|]. apply rpm_back; assumption.
Qed.

(** Line numbers from 2^31 up are printed as negative numbers. *)
Theorem C78_negative_line_refuted : forall os h r n e, py_frame os h r KJsFrame n e (FJs (mk_js_frame (Some (L "a.js")) 4294967295 2147483648 None)) ->
  exists a, py_str (St os h) r = Ok (St os h, a) /\ gives_text a (L "at a.js:-1:-2147483648").
Proof. intros os h r n e P. eexists. split; [exact (str_frame_is _ _ _ _ _ _ _ P)|]. assert (E : frame_str (FJs (mk_js_frame (Some (L "a.js")) 4294967295 2147483648 None)) = L "at a.js:-1:-2147483648") by (vm_compute; reflexivity). rewrite E. apply py_string_gives. Qed.
(** The texts of some frames are no frames for the constructor, or other frames: Python frames lack the word "line", kernel
    oops addresses have a prefix the parser does not know, Java frames without a source lack a parenthesis, and Ruby frames
    without a line number lack a colon. *)
Definition py_f := mk_python_frame false (Some (L "a.py")) 12 false (Some (L "f")) (Some (L "x()")).
Theorem C78_python_back_refuted : forall os h r n e, py_frame os h r KPythonFrame n e (FPython py_f) ->
  exists s a, py_str (St os h) r = Ok (St os h, a) /\ gives_text a s /\ no_frame KPythonFrame s.
Proof. intros os h r n e P. eexists _, _. split; [exact (str_frame_is _ _ _ _ _ _ _ P)|]. split; [apply py_string_gives|]. right. right. left. split; [reflexivity|]. eexists. vm_compute. reflexivity. Qed.
Definition ko_f := mk_koops_frame 4096 true (Some (L "f")) 1 2 (Some (L "m")) 0 None 0 0 None None.
Theorem C78_koops_back_refuted : forall os h r n e, py_frame os h r KKoopsFrame n e (FKoops ko_f) ->
  exists s a, py_str (St os h) r = Ok (St os h, a) /\ gives_text a s /\ sr_koops_frame_parse s = None.
Proof. intros os h r n e P. eexists _, _. split; [exact (str_frame_is _ _ _ _ _ _ _ P)|]. split; [apply py_string_gives|]. vm_compute. reflexivity. Qed.
Definition ja_f := mk_java_frame (Some (L "Foo.main")) None 0 None false false None.
Theorem C78_java_back_refuted : forall os h r n e, py_frame os h r KJavaFrame n e (FJava ja_f) ->
  exists s a f, py_str (St os h) r = Ok (St os h, a) /\ gives_text a s /\ reads_frame KJavaFrame s (FJava f) /\ vf_name f = Some (L "Foo.main)").
Proof. intros os h r n e P. eexists _, _, _. split; [exact (str_frame_is _ _ _ _ _ _ _ P)|]. split; [apply py_string_gives|]. split; [split; [reflexivity|eexists; vm_compute; reflexivity]|reflexivity]. Qed.
Definition rb_f := mk_ruby_frame (Some (L "a.rb")) 0 false (Some (L "f")) 0 0.
Theorem C78_ruby_back_refuted : forall os h r n e, py_frame os h r KRubyFrame n e (FRuby rb_f) ->
  exists s a, py_str (St os h) r = Ok (St os h, a) /\ gives_text a s /\ no_frame KRubyFrame s.
Proof. intros os h r n e P. eexists _, _. split; [exact (str_frame_is _ _ _ _ _ _ _ P)|]. split; [apply py_string_gives|]. do 3 right. left. split; [reflexivity|vm_compute; reflexivity]. Qed.
(** A thread whose list was replaced by something else: the method returns a text (with -1) although an exception is set,
    unless the text is not UTF-8; deleting the attribute makes it read through NULL. *)
Theorem C78_no_list_refuted : forall os h r k n e l at_ b t fk es, alive os r (PyStruct k (e_addr e) (Some l :: at_)) -> unlinked_thread h k fk n e es -> is_thread k (e_val e) t -> thread_numbers t ->
  alive os l b -> (forall items, b <> PyList items) ->
  (exists x, py_str (St os h) r = Ok (St os h, ValueAnd x SystemError)) \/ py_str (St os h) r = Ok (St os h, Raise UnicodeDecodeError).
Proof. exact str_no_list. Qed.
Theorem C78_deleted_refuted : forall os h r k n e at_ t fk es, alive os r (PyStruct k (e_addr e) (None :: at_)) -> unlinked_thread h k fk n e es -> is_thread k (e_val e) t -> thread_numbers t ->
  py_str (St os h) r = UB.
Proof. exact str_deleted. Qed.

(** The hypotheses are met: any frame can be the structure of an object. *)
Example every_frame f : exists os h r e, py_frame os h r (kind_of_frame f) None e f.
Proof.
  destruct (wrap_made [] [] f) as (os & h & r & e & _ & _ & (_ & A & O & F) & _). exists os, h, r, e. split; [exists []; exists 0%nat; exact A|split; [exact O|exact F]].
Qed.
Example frames_1 : c_numbers (FCore (mk_core_frame 4198400 (Some (L "abc")) 1024 (Some (L "f")) None None true)) /\
  frame_str (FCore (mk_core_frame 4198400 (Some (L "abc")) 1024 (Some (L "f")) None None true)) = L "[0x0000000000401000] f abc+0x400 " /\
  c_numbers (FKoops ko_f) /\ frame_str (FKoops ko_f) = L "[0x0000000000001000] f+0x1/0x2 [m]" /\
  c_numbers (FGdb (mk_gdb_frame (Some (L "??")) None 3 None 0 false 4096 (Some (L "libc.so.6")))) /\
  frame_str (FGdb (mk_gdb_frame (Some (L "??")) None 3 None 0 false 4096 (Some (L "libc.so.6")))) = L "Frame #3: unknown function @ 0x0000000000001000 (libc.so.6)".
Proof. unfold c_numbers, u64, u32. cbn -[Z.pow frame_str]. repeat split; try lia; vm_compute; reflexivity. Qed.
Definition rb_g := mk_ruby_frame (Some (L "a.rb")) 7 true (Some (L "main")) 2 1.
Example ruby_1 : ruby_showable rb_g (L "a.rb") (L "main") /\ 0 < rf_file_line rb_g < 2 ^ 31 /\ rf_block_level rb_g < 2 ^ 31 /\
  ruby_frame_str rb_g = L "a.rb:7:in `rescue in block (2 levels) in <main>'".
Proof.
  split; [|repeat split]. unfold ruby_showable. repeat split; try discriminate; try (repeat constructor; cbn; intuition discriminate); intros [x E]; discriminate E.
Qed.
Definition js_g := mk_js_frame (Some (L "/a/b.js")) 7 3 (Some (L "f")).
Example js_1 : js_showable js_g /\ js_frame_str js_g = L "at f (/a/b.js:7:3)".
Proof.
  split; [|reflexivity]. unfold js_showable. split; [cbn; lia|]. split; [cbn; lia|]. split.
  - exists (L "/a/b.js"). split; [reflexivity|]. split; [discriminate|]. split; [cbn; intuition discriminate|]. split; [intros [x E]; discriminate E|discriminate].
  - intros name E. injection E as <-. split; [discriminate|]. split; cbn; intuition discriminate.
Qed.
Definition ja_g := mk_java_frame (Some (L "Foo.main")) (Some (L "Foo.java")) 12 None false false None.
Example java_1 : java_showable ja_g /\ vf_class_path ja_g = None /\ java_frame_str ja_g = tab :: L "at Foo.main(Foo.java:12)".
Proof.
  split; [|split; reflexivity]. unfold java_showable. split; [reflexivity|]. split; [reflexivity|]. split; [cbn; lia|]. split; [|split; [discriminate|split; [|discriminate]]].
  - intros n E. injection E as <-. split; [discriminate|]. split; [|split; cbn; intuition discriminate]. intros E. cbn in E. intuition discriminate.
  - intros n E. injection E as <-. split; [discriminate|]. split; [repeat constructor; cbn; intuition discriminate|]. repeat split; intros [x E]; discriminate E.
Qed.
(** A package and an operating system. *)
Example package_1 : exists os h r e, alive os r (PyStruct KRpm (e_addr e) []) /\ own h KRpm None e /\ is_text KRpm (e_val e) "name" (Some (L "bash")) /\
  is_number KRpm (e_val e) "epoch" 2 /\ is_text KRpm (e_val e) "version" (Some (L "4.4")) /\ is_text KRpm (e_val e) "release" (Some (L "1.fc24")) /\
  is_text KRpm (e_val e) "architecture" (Some (L "x86_64")) /\ rpm_str (Some (L "bash")) 2 (Some (L "4.4")) (Some (L "1.fc24")) (Some (L "x86_64")) = L "bash-2:4.4-1.fc24.x86_64".
Proof.
  assert (K : own_kids [] (kid_ops KRpm) [None] [[]] []) by (apply (ok_cons [] KConsistency true [] None [] [] [] []); [constructor|discriminate|constructor]).
  destruct (place_ok KRpm [2; 0; 0] [Some (L "bash"); Some (L "4.4"); Some (L "1.fc24"); Some (L "x86_64")] None [None] [[]] [] [] None [] [] K (HeapProofs.ext_refl _) (HeapProofs.fresh_nil _) eq_refl) as (h & e & ps & pa & _ & O & V & _).
  exists [Some (1%nat, PyStruct KRpm (e_addr e) [])], h, 0%nat, e. split; [exists 0%nat; reflexivity|]. split; [exact O|]. rewrite V.
  split; [exists 0%nat; split; reflexivity|]. split; [exists 0%nat; split; reflexivity|]. split; [exists 1%nat; split; reflexivity|]. split; [exists 2%nat; split; reflexivity|].
  split; [exists 3%nat; split; reflexivity|]. reflexivity.
Qed.
Example system_1 : exists os h r e, alive os r (PyStruct KOs (e_addr e) []) /\ own h KOs None e /\ is_text KOs (e_val e) "name" (Some (L "fedora")) /\
  is_text KOs (e_val e) "version" (Some (L "24")) /\ is_text KOs (e_val e) "architecture" None /\ is_text KOs (e_val e) "cpe" None /\
  os_str (Some (L "fedora")) (Some (L "24")) None None = L "fedora 24".
Proof.
  destruct (place_leaf KOs [0] [Some (L "fedora"); Some (L "24"); None; None; None; None] None [] None [] eq_refl eq_refl) as (h & e & ps & pa & _ & O & V & _).
  exists [Some (1%nat, PyStruct KOs (e_addr e) [])], h, 0%nat, e. split; [exists 0%nat; reflexivity|]. split; [exact O|]. rewrite V.
  split; [exists 0%nat; split; reflexivity|]. split; [exists 1%nat; split; reflexivity|]. split; [exists 2%nat; split; reflexivity|]. split; [exists 3%nat; split; reflexivity|]. reflexivity.
Qed.
Example library_1 : exists os h r e, alive os r (PyStruct KGdbLib (e_addr e) []) /\ own h KGdbLib None e /\ is_lib (e_val e) (mk_gdb_sharedlib 18446744073709551615 18446744073709551615 2 None).
Proof.
  destruct (sharedlib_new_ok [] []) as (h & e & _ & _ & O & I). exists [Some (1%nat, PyStruct KGdbLib (e_addr e) [])], h, 0%nat, e. split; [exists 0%nat; reflexivity|]. split; [exact O|exact I].
Qed.
Open Scope nat_scope.
(** Threads and stack traces: those of C75. *)
Example threads_1 : py_thread_is (pb_objs [2] [5]) pb_heap 0 KCoreThread None (pb_t 0 [pb_f1]) [pb_f1] (TCore (mk_core_thread [fr1])) /\
  py_str (St (pb_objs [2] [5]) pb_heap) 0 = Ok (St (pb_objs [2] [5]) pb_heap, py_string (L "Thread with 1 frames")) /\
  py_stack_is cr_objs cr_heap 0 KCoreStack None cr_e [PT 2 3 [4] cr_t [cr_f]] (SCore cr_s) /\ py_gdb_is gl_objs (gl_heap None) 0 None gl_e [] [4] [gl_lib] gl_s.
Proof. split; [exact pb_t1|]. split; [vm_compute; reflexivity|]. split; [apply cr_case|apply gl_case]. Qed.
(** A core thread whose list was replaced by a number, or deleted. *)
Example threads_2 : exists h e, unlinked_thread h KCoreThread KCoreFrame None e [] /\ is_thread KCoreThread (e_val e) (TCore (mk_core_thread [])) /\
  alive [Some (1, PyStruct KCoreThread (e_addr e) [Some 1]); Some (1, PyOther)] 0 (PyStruct KCoreThread (e_addr e) (Some 1 :: [])) /\
  py_str (St [Some (1, PyStruct KCoreThread (e_addr e) [Some 1]); Some (1, PyOther)] h) 0 =
    Ok (St [Some (1, PyStruct KCoreThread (e_addr e) [Some 1]); Some (1, PyOther)] h, ValueAnd (map (fun c => Z.of_N (N_of_ascii c)) (L "Thread with -1 frames")) SystemError).
Proof.
  exists [CObj KCoreThread [] [] [None] None [] None], (0, Val [] [] None [[]], [0]). split.
  - exists [], [], None, [], [], None, None, [], []. repeat split; try reflexivity; constructor.
  - split; [split; [reflexivity|exists []; split; [reflexivity|constructor]]|]. split; [exists 0; reflexivity|vm_compute; reflexivity].
Qed.
Print Assumptions C78_frame.
Print Assumptions C78_thread.
Print Assumptions C78_stack.
Print Assumptions C78_gdb_stack.
Print Assumptions C78_stack_items.
Print Assumptions C78_package.
Print Assumptions C78_system.
Print Assumptions C78_library.
Print Assumptions C78_ruby_back.
Print Assumptions C78_js_back.
Print Assumptions C78_java_back.
Print Assumptions C78_package_back.
Print Assumptions C78_negative_line_refuted.
Print Assumptions C78_python_back_refuted.
Print Assumptions C78_koops_back_refuted.
Print Assumptions C78_java_back_refuted.
Print Assumptions C78_ruby_back_refuted.
Print Assumptions C78_no_list_refuted.
Print Assumptions C78_deleted_refuted.
