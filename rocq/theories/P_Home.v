(** * Property C95: what is told about a crash does not depend on the name of the user. *)
From Verif Require Import Base Types UtilsModel NormTables CmpModel NormModel NormProofs CrashModel ParseSpec TextModel SystemModel ReportModel JsonTypesModel
  RubyParseModel RubyParseSpec PyParseModel JsParseModel JavaParseModel HomeSpec HomeProofs HomeProofs2 HomeProofs3 HomeProofs4 HomeProofs5.
Open Scope Z_scope.

(** Normalizing a thread of a core dump and the same thread of another user gives one and the same thread, so nothing
    that is computed from it can tell the users apart. *)
Theorem C95_normalized : forall t u, Forall2 core_alike (ct_frames t) (ct_frames u) -> sr_thread_normalize (TCore u) = sr_thread_normalize (TCore t).
Proof. intros t u H. cbn [sr_thread_normalize]. unfold sr_normalize_core_thread. now rewrite (core_normalize_alike _ _ H). Qed.
(** Also without normalization the duplication hashes are the same ... *)
Theorem C95_duphash : forall t u, Forall2 core_alike (ct_frames t) (ct_frames u) ->
  forall sha1 n prefix flags, sr_thread_get_duphash sha1 (TCore u) n prefix flags = sr_thread_get_duphash sha1 (TCore t) n prefix flags.
Proof. exact core_duphash_alike. Qed.
(** ... and the same thread is found to have crashed, and shown with the same text. *)
Theorem C95_crash_thread : forall s s', cores_alike s s' -> sr_core_stacktrace_find_crash_thread s' = sr_core_stacktrace_find_crash_thread s.
Proof. exact core_crash_alike. Qed.
Theorem C95_short_text : forall s s' n, cores_alike s s' -> sr_stacktrace_to_short_text (SCore s') n = sr_stacktrace_to_short_text (SCore s) n.
Proof. exact core_short_alike. Qed.
(** Stack traces of gdb keep the paths of source files, but their duplication hashes are the same. *)
Theorem C95_gdb_duphash : forall t u, Forall2 gdb_alike (gt_frames t) (gt_frames u) ->
  forall sha1 n prefix flags, sr_thread_get_duphash sha1 (TGdb u) n prefix flags = sr_thread_get_duphash sha1 (TGdb t) n prefix flags.
Proof. exact gdb_duphash_alike. Qed.
(** A Ruby backtrace of another user is read as the same stack trace. *)
Theorem C95_ruby : forall first first' lines lines' f fs message message' class,
  sr_ruby_frame_parse first = Ok (f, []) -> Forall2 (fun l g => sr_ruby_frame_parse l = Ok (g, [])) lines fs ->
  ruby_line_alike first first' -> Forall2 ruby_line_alike lines lines' ->
  without [tab] message -> without [tab] message' -> without [tab] class -> class <> [] -> ~ In "("%char class ->
  sr_ruby_stacktrace_parse (ruby_show_trace message class first lines) = Ok (mk_ruby_stacktrace (Some class) (f :: fs), []) /\
  sr_ruby_stacktrace_parse (ruby_show_trace message' class first' lines') = Ok (mk_ruby_stacktrace (Some class) (f :: fs), []).
Proof.
  intros first first' lines lines' f fs message message' class H1 H2 A1 A2 M M' C1 C2 C3. split; [|now apply (ruby_trace_alike first first' lines)].
  apply (ruby_trace_alike first first lines); try assumption; [now left|]. clear H2 A2. induction lines; constructor; [now left|assumption].
Qed.
(** So is a frame of a Python traceback. *)
Theorem C95_python : forall s s' f rest, python_line_alike s s' -> sr_python_frame_parse s = Ok (Some f, rest) -> sr_python_frame_parse s' = Ok (Some f, rest).
Proof. exact python_frame_alike. Qed.
(** So is a V8 frame, without the name of a function and with it. *)
Theorem C95_js_place : forall s s' f rest, js_line_alike s s' -> jf_function_name f = None -> sr_js_frame_parse s = Ok (f, rest) -> sr_js_frame_parse s' = Ok (f, rest).
Proof. exact js_line. Qed.
Theorem C95_js_call : forall s s' f rest, js_call_alike s s' -> jf_function_name f <> None -> sr_js_frame_parse s = Ok (f, rest) -> sr_js_frame_parse s' = Ok (f, rest).
Proof. exact js_call. Qed.
(** So is a line of a Java exception that tells the path of the class file or archive. *)
Theorem C95_java : forall s s' f rest, java_line_alike s s' -> sr_java_frame_parse s = Ok (f, rest) -> sr_java_frame_parse s' = Ok (f, rest).
Proof. exact java_frame_alike. Qed.

(** ** Where the name is told *)
Definition in_file (name file : str) : core_frame := mk_core_frame 4096 None ulong_max (Some name) (Some file) None true.
Definition core_of (exe : str) (frames : list core_frame) : core_stacktrace := mk_core_stacktrace 11 (Some exe) None [mk_core_thread frames] false.
(** The reason and the JSON of a core stack trace tell the path of the executable with the user's name, even if all
    threads are normalized. *)
Theorem C95_executable_refuted : exists s s', cores_alike s s' /\ map sr_normalize_core_thread (cs_threads s) = cs_threads s /\ map sr_normalize_core_thread (cs_threads s') = cs_threads s' /\
  sr_stacktrace_get_reason (SCore s) = Ok (Some (L "Program /home/alice/bin/app was terminated by signal 11")) /\
  sr_stacktrace_get_reason (SCore s') = Ok (Some (L "Program /home/bob/bin/app was terminated by signal 11")) /\
  sr_stacktrace_to_json (SCore s) <> sr_stacktrace_to_json (SCore s').
Proof.
  exists (core_of (L "/home/alice/bin/app") [in_file (L "work") (L "/home/anonymized/bin/app")]), (core_of (L "/home/bob/bin/app") [in_file (L "work") (L "/home/anonymized/bin/app")]).
  split; [|do 4 (split; [vm_compute; reflexivity|]); vm_compute; discriminate].
  split; [reflexivity|]. split; [reflexivity|]. split; [|split; [reflexivity|]].
  - right. exists (L "alice"), (L "bob"), (L "bin/app").
    split; [apply ordinary_check; [vm_compute; reflexivity|cbn; intuition discriminate]|]. split; [apply ordinary_check; [vm_compute; reflexivity|cbn; intuition discriminate]|]. split; reflexivity.
  - constructor; [|constructor]. constructor; [|constructor]. repeat split; try reflexivity. now left.
Qed.
(** A user whose name looks like that of a library is taken for it: frames are dropped that another user's report has. *)
Theorem C95_odd_name_refuted :
  sr_normalize_core_frames [in_file (L "work") (L "/home/joe/app"); in_file (L "abort") (L "/home/joe/app"); in_file (L "main") (L "/home/joe/app")] =
    [in_file (L "work") (L "/home/anonymized/app"); in_file (L "abort") (L "/home/anonymized/app"); in_file (L "main") (L "/home/anonymized/app")] /\
  sr_normalize_core_frames [in_file (L "work") (L "/home/libc-dev/app"); in_file (L "abort") (L "/home/libc-dev/app"); in_file (L "main") (L "/home/libc-dev/app")] =
    [in_file (L "main") (L "/home/anonymized/app")].
Proof. split; vm_compute; reflexivity. Qed.
(** gdb stack traces tell it in their text. *)
Theorem C95_gdb_text_refuted : exists f, sr_gdb_frame_append_to_str true (sr_normalize_gdb_frame f) = L " #0 work at /home/alice/app.c:12".
Proof. exists (mk_gdb_frame (Some (L "work")) None 0 (Some (L "/home/alice/app.c")) 12 false 4096 None). vm_compute. reflexivity. Qed.

(** ** The hypotheses are met *)
Example C95_users : ordinary (L "alice") /\ ordinary (L "bob") /\ ordinary (L "john.doe") /\ ordinary (L "anonymized") /\ ~ ordinary (L "emacs") /\ ~ ordinary (L "libc-dev").
Proof.
  do 4 (split; [apply ordinary_check; [vm_compute; reflexivity|cbn; intuition discriminate]|]).
  split; intros [_ O].
  - apply (O (L "emacs")); [|discriminate|exists (L "/home/"), (L "/"); reflexivity]. apply incl_removable. vm_compute. tauto.
  - apply (O (L "libc-")); [|discriminate|exists (L "/home/"), (L "dev/"); reflexivity]. apply incl_core_exit. vm_compute. tauto.
Qed.
Definition threads_of (user : str) : list core_thread :=
  [mk_core_thread [in_file (L "poll") (L "/usr/lib64/libc.so.6"); in_file (L "loop") (home user (L "bin/app"))];
   mk_core_thread [in_file (L "raise") (L "/usr/lib64/libc.so.6"); in_file (L "abort") (L "/usr/lib64/libc.so.6"); in_file (L "work") (home user (L "lib/libapp.so")); in_file (L "main") (home user (L "bin/app"))]].
Example C95_example : exists s s', s <> s' /\ cores_alike s s' /\ cs_threads s = threads_of (L "alice") /\ cs_threads s' = threads_of (L "bob") /\
  sr_core_stacktrace_find_crash_thread s = Some 1%nat.
Proof.
  exists (mk_core_stacktrace 6 (Some (L "/usr/bin/app")) None (threads_of (L "alice")) false), (mk_core_stacktrace 6 (Some (L "/usr/bin/app")) None (threads_of (L "bob")) false).
  split; [vm_compute; discriminate|]. split; [|split; [reflexivity|]; split; [reflexivity|]; vm_compute; reflexivity].
  split; [reflexivity|]. split; [reflexivity|]. split; [now left|]. split; [reflexivity|].
  destruct C95_users as (A & B & _).
  assert (G : forall n r, core_alike (in_file n (home (L "alice") r)) (in_file n (home (L "bob") r))).
  { intros n r. repeat split; try reflexivity. right. exists (L "alice"), (L "bob"), r. repeat split; auto; apply A || apply B. }
  assert (H : forall n p, core_alike (in_file n p) (in_file n p)) by (intros n p; repeat split; try reflexivity; now left).
  unfold threads_of. cbn [cs_threads]. constructor; [|constructor; [|constructor]]; cbn [ct_frames]; repeat (constructor; [first [apply G|apply H]|]); constructor.
Qed.
Example C95_ruby_example : exists f g,
  sr_ruby_frame_parse (L "/home/alice/app.rb:3:in `work'") = Ok (f, []) /\ sr_ruby_frame_parse (L "/home/alice/app.rb:9:in `<main>'") = Ok (g, []) /\
  ruby_line_alike (L "/home/alice/app.rb:3:in `work'") (L "/home/bob/app.rb:3:in `work'") /\
  ruby_line_alike (L "/home/alice/app.rb:9:in `<main>'") (L "/home/bob/app.rb:9:in `<main>'").
Proof.
  do 2 eexists. split; [vm_compute; reflexivity|]. split; [vm_compute; reflexivity|].
  split; right; exists (L "alice"), (L "bob"); eexists; (split; [reflexivity|]; split; [reflexivity|]; split; unfold without; repeat constructor; cbn; intuition discriminate).
Qed.
Example C95_python_example : exists f,
  sr_python_frame_parse (L "  File ""/home/alice/app.py"", line 3, in work" ++ [nl] ++ L "    go()" ++ [nl]) = Ok (Some f, []) /\
  python_line_alike (L "  File ""/home/alice/app.py"", line 3, in work" ++ [nl] ++ L "    go()" ++ [nl]) (L "  File ""/home/bob/app.py"", line 3, in work" ++ [nl] ++ L "    go()" ++ [nl]).
Proof.
  eexists. split; [vm_compute; reflexivity|]. exists (L "alice"), (L "bob"). eexists. split; [reflexivity|]. split; [reflexivity|]. split; unfold without; repeat constructor; cbn; intuition discriminate.
Qed.
Example C95_js_place_example : exists f, jf_function_name f = None /\
  sr_js_frame_parse (L "    at /home/alice/app.js:3:5") = Ok (f, []) /\ js_line_alike (L "    at /home/alice/app.js:3:5") (L "    at /home/bob/app.js:3:5").
Proof.
  eexists. split; [|split; [vm_compute; reflexivity|]]; [reflexivity|].
  exists (L "    "), (L "alice"), (L "bob"), (L "app.js:3:5"). split; [reflexivity|]. split; [reflexivity|]. split; [repeat constructor|]. split; unfold without; repeat constructor; cbn; intuition discriminate.
Qed.
Example C95_js_call_example : exists f, jf_function_name f = Some (L "Object.work") /\
  sr_js_frame_parse (L "    at Object.work [as go] (/home/alice/app.js:3:5)") = Ok (f, []) /\
  js_call_alike (L "    at Object.work [as go] (/home/alice/app.js:3:5)") (L "    at Object.work [as go] (/home/bob/app.js:3:5)").
Proof.
  eexists. split; [|split; [vm_compute; reflexivity|]]; [reflexivity|].
  exists (L "    "), (L "Object.work"), (L "[as go] "), (L "alice"), (L "bob"), (L "app.js:3:5)"). split; [reflexivity|]. split; [reflexivity|]. split; [repeat constructor|].
  split; [discriminate|]. repeat split; unfold without; repeat constructor; cbn; intuition discriminate.
Qed.
Definition java_line_of (user : str) : str := [tab] ++ L "at Main.work(Main.java:9) [jar:file:/home/" ++ user ++ L "/app.jar!/Main.class]" ++ [nl].
Example C95_java_example : exists f, vf_class_path f = Some (L "/home/anonymized/app.jar") /\ sr_java_frame_parse (java_line_of (L "alice")) = Ok (f, []) /\
  java_line_alike (java_line_of (L "alice")) (java_line_of (L "bob")).
Proof.
  eexists. split; [|split; [vm_compute; reflexivity|]]; [reflexivity|].
  exists [tab], (L " "), (L "Main.work"), (L "Main.java:9"), (L " "), (L "jar:file:"), (L "alice"), (L "bob"), (L "app.jar!/Main.class]" ++ [nl]).
  split; [reflexivity|]. split; [reflexivity|]. split; [now right|]. split; [repeat constructor; cbn; tauto|]. split; [repeat constructor; cbn; tauto|]. split; [discriminate|].
  split; [cbn; intuition discriminate|]. repeat split; unfold without; repeat constructor; cbn; intuition discriminate.
Qed.
Print Assumptions C95_normalized.
Print Assumptions C95_duphash.
Print Assumptions C95_crash_thread.
Print Assumptions C95_short_text.
Print Assumptions C95_gdb_duphash.
Print Assumptions C95_ruby.
Print Assumptions C95_python.
Print Assumptions C95_js_place.
Print Assumptions C95_js_call.
Print Assumptions C95_java.
Print Assumptions C95_executable_refuted.
Print Assumptions C95_odd_name_refuted.
Print Assumptions C95_gdb_text_refuted.
