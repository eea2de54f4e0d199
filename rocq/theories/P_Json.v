(** * Properties C04, C05 (JSON part), C31-C36, C39: JSON. *)
From Verif Require Import Base UtilsModel JsonSpec JsonModel JsonProofs JsonScan Types JsonTypesModel JsonTypesSpec JsonReaders JsonWriters JsonRoundtrip JsonRoundtrip2 JsonRoundtrip3.
Open Scope Z_scope.

(** The JSON grammar is unambiguous: a text denotes at most one value. *)
Theorem C04_grammar_unambiguous : forall v1 v2 t, json_text v1 t -> json_text v2 t -> v1 = v2.
Proof. exact json_text_unique. Qed.

Ltac safe1 := apply Forall_nil || apply Forall_cons || exact I || (left; vm_compute; discriminate) || (right; tauto) || split.
Ltac safe := repeat safe1.
(** ** C04 escaping *)
Theorem C04_escape_faithful : forall s, json_safe s -> jchars s (sr_json_escape s).
Proof. exact json_escape_correct. Qed.
Theorem C04_escape_only_reading : forall s s', json_safe s -> jchars s' (sr_json_escape s) -> s' = s.
Proof. intros s s' H H'. exact (jchars_fun _ _ _ H' (json_escape_correct s H)). Qed.
Theorem C04_escape_no_newline : forall s, json_safe s -> ~ In nl (sr_json_escape s).
Proof. intros s H. exact (jchars_no_nl _ _ (json_escape_correct s H)). Qed.
(** Strings with other control characters are not escaped into JSON at all. *)
Theorem C04_other_control_characters : forall s, (exists v, jchars v (sr_json_escape s)) <-> json_safe s.
Proof. intros s. split; [intros [v H]; exact (json_escape_unsafe s v H) | intros H; exists s; exact (json_escape_correct s H)]. Qed.
Example C04_example : json_safe (L "a""\" ++ [nl; tab]) /\ sr_json_escape (L "a""\" ++ [nl; tab]) = L "a\""\\\n\t" /\
  ~ json_safe ["001"%char].
Proof.
  split; [|split; [reflexivity|]].
  - safe.
  - intros H. inversion H as [|? ? Hc]; subst. unfold json_safe_char in Hc. cbv in Hc. intuition congruence.
Qed.

(** ** C05 indentation keeps the value *)
Theorem C05_indent_json : forall v t n, json_text v t -> json_text v (sr_indent t n).
Proof. exact json_text_indent. Qed.
Theorem C05_indent_except_first_json : forall v t n, json_text v t -> json_text v (sr_indent_except_first_line t n).
Proof. exact json_text_indent_efl. Qed.
Example C05_json_example : json_text (JArr [JInt 1; JStr (L "x")]) (L "[ 1" ++ nl :: L ", ""x"" ]").
Proof.
  exists [], (L "[ 1" ++ nl :: L ", ""x"" ]"), []. split; [constructor|]. split; [|split; [constructor | rewrite app_nil_r; reflexivity]].
  apply (jv_arr _ (L " 1" ++ nl :: L ", ""x"" ")).
  apply (je_more (JInt 1) [sp] (L "1") [nl] [JStr (L "x")] (L " ""x"" ")).
  - repeat constructor.
  - constructor. left. split; [|discriminate]. apply (jd_one "1"); reflexivity.
  - constructor; [right; right; left; reflexivity | constructor].
  - apply (je_one (JStr (L "x")) [sp] (L """x""") [sp]).
    + repeat constructor.
    + apply (jv_str (L "x") (L "x")). constructor; [vm_compute; discriminate | discriminate | discriminate | constructor].
    + repeat constructor.
Qed.

(** ** C31 core *)
Theorem C31_roundtrip : forall s, core_ok s -> survives (core_stacktrace_to_json s) core_stacktrace_from_json s.
Proof. exact core_ok_survives. Qed.
(** For every stack trace the output is well-formed exactly when there is a thread and all
    strings can be carried ... *)
Theorem C31_well_formed : forall s, valid_json (core_stacktrace_to_json s) <-> core_safe s /\ cs_threads s <> [].
Proof. exact core_valid_iff. Qed.
(** ... and then it comes back with clipped addresses and a crash mark only on a non-empty thread. *)
Theorem C31_comes_back_as : forall s, core_range s -> core_safe s -> cs_threads s <> [] ->
  survives (core_stacktrace_to_json s) core_stacktrace_from_json (core_as_read s).
Proof. exact core_survives. Qed.
Definition core_example : core_stacktrace :=
  mk_core_stacktrace 11 (Some (L "/bin/""x""")) (Some 1%nat)
    [mk_core_thread []; mk_core_thread [mk_core_frame 4096 (Some (L "ab")) 16 (Some (L "main")) (Some (L "a.c")) (Some (L "call")) false; core_frame_new]] true.
Example C31_example : core_ok core_example.
Proof.
  unfold core_ok, core_example, core_frames; cbn [cs_signal cs_executable cs_threads cs_crash_thread ct_frames map concat app].
  split; [unfold u16, two16; lia|]. split; [safe|]. split; [|split; [discriminate|]].
  - constructor; [|constructor; [|constructor]]; unfold core_frame_ok, core_frame_new, core_frame_safe, ulong_max, opt_safe; cbn.
    + split; [left; lia|]. split; [left; lia|]. split; [discriminate|]. safe.
    + split; [right; reflexivity|]. split; [right; reflexivity|]. split; [reflexivity|]. safe.
  - exists 1%nat. eexists. split; [reflexivity|]. split; [reflexivity | discriminate].
Qed.
(** Addresses from 2^63 on do not survive. *)
Theorem C31_large_address_refuted : exists s, core_range s /\ core_safe s /\ cs_threads s <> [] /\
  ~ survives (core_stacktrace_to_json s) core_stacktrace_from_json s.
Proof.
  exists (mk_core_stacktrace 11 None (Some 0%nat) [mk_core_thread [mk_core_frame (2 ^ 63) None 0 None None None true]] false).
  split; [unfold core_range, u16, two16; cbn; split; [lia|]; repeat constructor; cbn; unfold two64; lia|].
  split; [safe|]. split; [discriminate|]. intros [[v Hv] H].
  assert (R := core_survives (mk_core_stacktrace 11 None (Some 0%nat) [mk_core_thread [mk_core_frame (2 ^ 63) None 0 None None None true]] false)).
  destruct R as [_ R]; [unfold core_range, u16, two16; cbn; split; [lia|]; repeat constructor; cbn; unfold two64; lia | safe | discriminate |].
  specialize (R v Hv). rewrite (H v Hv) in R. vm_compute in R. discriminate.
Qed.
(** The mark on an empty crash thread is lost. *)
Theorem C31_empty_crash_thread_refuted : exists s, core_range s /\ core_safe s /\ cs_threads s <> [] /\
  cs_crash_thread s = Some 0%nat /\
  forall v, json_text v (core_stacktrace_to_json s) -> exists s', core_stacktrace_from_json v = Ok s' /\ cs_crash_thread s' = None.
Proof.
  exists (mk_core_stacktrace 11 None (Some 0%nat) [mk_core_thread []; mk_core_thread [core_frame_new]] false).
  assert (Hr : core_range (mk_core_stacktrace 11 None (Some 0%nat) [mk_core_thread []; mk_core_thread [core_frame_new]] false)).
  { unfold core_range, u16, two16; cbn; split; [lia|]; repeat constructor; cbn; unfold two64, ulong_max; lia. }
  assert (Hs : core_safe (mk_core_stacktrace 11 None (Some 0%nat) [mk_core_thread []; mk_core_thread [core_frame_new]] false)) by safe.
  split; [exact Hr|]. split; [exact Hs|]. split; [discriminate|]. split; [reflexivity|].
  intros v Hv. eexists. split; [apply (core_survives _ Hr Hs); [discriminate | exact Hv] | reflexivity].
Qed.

(** ** C32 python *)
Theorem C32_roundtrip : forall s, python_ok s -> survives (python_stacktrace_to_json s) python_stacktrace_from_json s.
Proof. exact python_ok_survives. Qed.
Theorem C32_well_formed : forall s, valid_json (python_stacktrace_to_json s) <->
  opt_safe (ps_exception_name s) /\ Forall (fun f => ~ python_frame_empty f /\ python_frame_safe f) (ps_frames s).
Proof. exact python_valid_iff. Qed.
Theorem C32_comes_back_as : forall s, python_range s -> valid_json (python_stacktrace_to_json s) ->
  survives (python_stacktrace_to_json s) python_stacktrace_from_json (python_as_read s).
Proof. exact python_survives. Qed.
Example C32_example : python_ok (mk_python_stacktrace (Some (L "ValueError"))
  [mk_python_frame true (Some (L "string")) 3 false (Some (L "f")) None; mk_python_frame false None 7 false None (Some (L "x = ""1"""))]).
Proof.
  split; [safe|]. constructor; [|constructor; [|constructor]]; unfold python_frame_ok, python_frame_empty, python_frame_safe; cbn;
  (split; [lia|]); (split; [intuition discriminate|]); safe; intros; discriminate || reflexivity.
Qed.

(** ** C33 ruby *)
Theorem C33_roundtrip : forall s, ruby_ok s -> survives (ruby_stacktrace_to_json s) ruby_stacktrace_from_json s.
Proof. exact ruby_ok_survives. Qed.
Theorem C33_well_formed : forall s, valid_json (ruby_stacktrace_to_json s) <->
  opt_safe (rs_exception_name s) /\ Forall (fun f => ~ ruby_frame_empty f /\ ruby_frame_safe f) (rs_frames s).
Proof. exact ruby_valid_iff. Qed.
Theorem C33_comes_back_as : forall s, ruby_range s -> valid_json (ruby_stacktrace_to_json s) ->
  survives (ruby_stacktrace_to_json s) ruby_stacktrace_from_json (ruby_as_read s).
Proof. exact ruby_survives. Qed.
Example C33_example : ruby_ok (mk_ruby_stacktrace (Some (L "NameError"))
  [mk_ruby_frame (Some (L "/a.rb")) 3 true (Some (L "main")) 1 2; mk_ruby_frame None 0 false (Some (L "f")) 0 0]).
Proof.
  split; [safe|]. constructor; [|constructor; [|constructor]]; unfold ruby_frame_ok, ruby_frame_empty, ruby_frame_safe; cbn;
  (split; [lia|]); (split; [lia|]); (split; [lia|]); (split; [intuition discriminate|]); safe; intros; discriminate || reflexivity.
Qed.

(** ** C34 javascript *)
Theorem C34_roundtrip : forall s, js_ok s -> survives (js_stacktrace_to_json s) js_stacktrace_from_json s.
Proof. exact js_ok_survives. Qed.
Theorem C34_well_formed : forall s, valid_json (js_stacktrace_to_json s) <->
  opt_safe (js_exception_name s) /\ Forall (fun f => ~ js_frame_empty f /\ js_frame_safe f) (js_frames s).
Proof. exact js_valid_iff. Qed.
Theorem C34_comes_back_as : forall s, js_range s -> valid_json (js_stacktrace_to_json s) ->
  survives (js_stacktrace_to_json s) js_stacktrace_from_json (js_as_read s).
Proof. exact js_survives. Qed.
Example C34_example : js_ok (mk_js_stacktrace (Some (L "Error")) [mk_js_frame (Some (L "/a.js")) 3 5 (Some (L "f"))] 17).
Proof.
  split; [safe|]. split; [|right; reflexivity]. constructor; [|constructor]. unfold js_frame_ok, js_frame_empty, js_frame_safe; cbn.
  (split; [lia|]); (split; [lia|]); (split; [intuition discriminate|]); safe.
Qed.
(** The platform with engine V8 and unknown runtime - what the V8 parser produces - comes back
    as one with an unknown engine and runtime Node.js. *)
Theorem C34_platform_refuted : exists s, js_range s /\ js_platform s = 1 /\ valid_json (js_stacktrace_to_json s) /\
  forall v, json_text v (js_stacktrace_to_json s) -> exists s', js_stacktrace_from_json v = Ok s' /\ js_platform s' = 16.
Proof.
  set (s := mk_js_stacktrace None [] 1). exists s.
  assert (Hr : js_range s) by (split; [unfold s, u32, two32; cbn; lia | constructor]).
  assert (Hv : valid_json (js_stacktrace_to_json s)) by (apply js_valid_iff; safe).
  split; [exact Hr|]. split; [reflexivity|]. split; [exact Hv|].
  intros v H. eexists. split; [apply (js_survives s Hr Hv); exact H | reflexivity].
Qed.

(** ** C35 java *)
Theorem C35_roundtrip : forall s, java_ok s -> survives (java_stacktrace_to_json s) java_stacktrace_from_json s.
Proof. exact java_ok_survives. Qed.
Theorem C35_well_formed : forall s, valid_json (java_stacktrace_to_json s) <-> java_safe s.
Proof. exact java_valid_iff. Qed.
Theorem C35_comes_back_as : forall s, java_range s -> java_safe s ->
  survives (java_stacktrace_to_json s) java_stacktrace_from_json (java_as_read s).
Proof. exact java_survives. Qed.
Example C35_example : java_ok (mk_java_stacktrace [mk_java_thread (Some (L "main"))
  [mk_java_frame (Some (L "java.lang.E")) None 0 None false true (Some (L "oops")); mk_java_frame (Some (L "a.B.c")) (Some (L "B.java")) 17 (Some (L "/x.jar")) true false None];
  mk_java_thread None []]).
Proof.
  split; [safe|]. constructor; [|constructor; [|constructor]]; split; cbn; try lia; intros; discriminate || reflexivity.
Qed.

(** ** C36 kernel oops *)
Theorem C36_roundtrip : forall s, koops_ok s -> survives (koops_stacktrace_to_json s) koops_stacktrace_from_json s.
Proof. exact koops_ok_survives. Qed.
Theorem C36_well_formed : forall s, valid_json (koops_stacktrace_to_json s) <-> koops_safe s.
Proof. exact koops_valid_iff. Qed.
(** everything but the reason, with clipped 64-bit numbers *)
Theorem C36_comes_back_as : forall s, koops_range s -> koops_safe s -> koops_modules_fit s ->
  survives (koops_stacktrace_to_json s) koops_stacktrace_from_json (koops_as_read s).
Proof. exact koops_survives. Qed.
Theorem C36_many_modules : forall s ms, koops_range s -> koops_safe s -> ks_modules s = Some ms -> (127 < length ms)%nat ->
  forall v, json_text v (koops_stacktrace_to_json s) -> koops_stacktrace_from_json v = UB.
Proof. exact koops_many_modules. Qed.
Definition koops_example : koops_stacktrace :=
  mk_koops_stacktrace (Some (L "5.1")) (true :: repeat false 14 ++ [true]) (Some [L "ext4"; L "usb"]) (Some (L "BUG: x" ++ [nl]))
    [mk_koops_frame 4096 true (Some (L "f")) 1 2 (Some (L "ext4")) 0 None 0 0 None (Some (L "IRQ"))] None.
Example C36_example : koops_ok koops_example.
Proof.
  split; [reflexivity|]. split; [|split; [cbn; lia | split; [|reflexivity]]].
  - unfold koops_safe, koops_example; cbn. split; [safe|]. split; [|safe].
    safe.
  - constructor; [|constructor]. unfold koops_frame_ok, below63; cbn. repeat (split; [lia|]). safe.
Qed.
(** The reason is never written. *)
Theorem C36_reason_refuted : exists s, koops_range s /\ ks_reason s = Some (L "BUG") /\ valid_json (koops_stacktrace_to_json s) /\
  forall v, json_text v (koops_stacktrace_to_json s) -> exists s', koops_stacktrace_from_json v = Ok s' /\ ks_reason s' = None.
Proof.
  set (s := mk_koops_stacktrace None no_taint None None [] (Some (L "BUG"))). exists s.
  assert (Hr : koops_range s) by (split; [reflexivity | constructor]).
  assert (Hs : koops_safe s) by safe.
  split; [exact Hr|]. split; [reflexivity|]. split; [apply koops_valid_iff; exact Hs|].
  intros v H. eexists. split; [apply (koops_survives s Hr Hs I); exact H | reflexivity].
Qed.

(** ** C39 readers: what they accept and return, and no undefined behaviour *)
Theorem C39_core : forall v s, core_stacktrace_from_json v = Ok s <-> reads_core v s.
Proof. exact core_reads. Qed.
Theorem C39_python : forall v s, python_stacktrace_from_json v = Ok s <-> reads_python v s.
Proof. exact python_reads. Qed.
Theorem C39_ruby : forall v s, ruby_stacktrace_from_json v = Ok s <-> reads_ruby v s.
Proof. exact ruby_reads. Qed.
Theorem C39_js : forall v s, js_stacktrace_from_json v = Ok s <-> reads_js v s.
Proof. exact js_reads. Qed.
Theorem C39_java : forall v s, java_stacktrace_from_json v = Ok s <-> reads_java v s.
Proof. exact java_reads. Qed.
Theorem C39_koops : forall v s, koops_stacktrace_from_json v = Ok s <-> reads_koops v s /\ koops_modules_fit s.
Proof. exact koops_reads. Qed.
Theorem C39_total : forall v, core_stacktrace_from_json v <> UB /\ python_stacktrace_from_json v <> UB /\
  ruby_stacktrace_from_json v <> UB /\ js_stacktrace_from_json v <> UB /\ java_stacktrace_from_json v <> UB.
Proof. intros v. exact (conj (core_not_UB v) (conj (python_not_UB v) (conj (ruby_not_UB v) (conj (js_not_UB v) (java_not_UB v))))). Qed.
Theorem C39_koops_total : forall v,
  (forall o l, v = JObj o -> jget (L "modules") o = Some (JArr l) ->
     exists ms, l = map JStr ms /\ (length ms <= 127)%nat) ->
  koops_stacktrace_from_json v <> UB.
Proof. exact koops_not_UB. Qed.
Theorem C39_koops_total_refuted : exists v, koops_stacktrace_from_json v = UB.
Proof. exists (JObj [(L "modules", JArr [JInt 1])]). reflexivity. Qed.
Example C39_example :
  python_stacktrace_from_json (JObj [(L "exception_name", JStr (L "E")); (L "stacktrace", JArr [JObj [(L "file_line", JInt 5)]])]) =
    Ok (mk_python_stacktrace (Some (L "E")) [mk_python_frame false None 5 false None None]) /\
  python_stacktrace_from_json (JObj [(L "exception_name", JInt 1)]) = Fail /\
  core_stacktrace_from_json (JObj [(L "stacktrace", JArr [JObj [(L "crash_thread", JBool true)]; JObj []])]) =
    Ok (mk_core_stacktrace 0 None (Some 0%nat) [mk_core_thread []; mk_core_thread []] false).
Proof. repeat split; reflexivity. Qed.
Print Assumptions C04_grammar_unambiguous.
Print Assumptions C04_escape_faithful.
Print Assumptions C04_escape_only_reading.
Print Assumptions C04_escape_no_newline.
Print Assumptions C04_other_control_characters.
Print Assumptions C05_indent_json.
Print Assumptions C05_indent_except_first_json.
Print Assumptions C31_roundtrip.
Print Assumptions C31_well_formed.
Print Assumptions C31_comes_back_as.
Print Assumptions C31_large_address_refuted.
Print Assumptions C31_empty_crash_thread_refuted.
Print Assumptions C32_roundtrip.
Print Assumptions C32_well_formed.
Print Assumptions C32_comes_back_as.
Print Assumptions C33_roundtrip.
Print Assumptions C33_well_formed.
Print Assumptions C33_comes_back_as.
Print Assumptions C34_roundtrip.
Print Assumptions C34_well_formed.
Print Assumptions C34_comes_back_as.
Print Assumptions C34_platform_refuted.
Print Assumptions C35_roundtrip.
Print Assumptions C35_well_formed.
Print Assumptions C35_comes_back_as.
Print Assumptions C36_roundtrip.
Print Assumptions C36_well_formed.
Print Assumptions C36_comes_back_as.
Print Assumptions C36_many_modules.
Print Assumptions C36_reason_refuted.
Print Assumptions C39_core.
Print Assumptions C39_python.
Print Assumptions C39_ruby.
Print Assumptions C39_js.
Print Assumptions C39_java.
Print Assumptions C39_koops.
Print Assumptions C39_total.
Print Assumptions C39_koops_total.
Print Assumptions C39_koops_total_refuted.
