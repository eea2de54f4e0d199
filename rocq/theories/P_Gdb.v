(** * C45, C61: gdb frames, threads and stack traces. *)
From Verif Require Import Base Types UtilsSpec UtilsProofs ParseSpec ParseProofs KoopsSpec KoopsProofs GdbParseModel GdbParseSpec GdbParseProofs GdbParseProofs2 GdbParseProofs3 GdbParseProofs4 GdbParseProofs5 GdbParseProofs6 GdbParseProofs7.
Open Scope nat_scope.

(** ** Frames *)
(** Each parser accepts exactly the texts of its form, returns what they say, and steps outside of the text
    exactly on the texts that end where it does not expect it. *)
Theorem C45_frame_start_exact s n r : sr_gdb_frame_parse_frame_start s = Some (Z.of_N n, r) <-> frame_start s n r.
Proof. exact (frame_start_iff s n r). Qed.
Theorem C45_function_name_exact s name type r : sr_gdb_frame_parse_function_name s = Ok (name, type, r) <-> function_name s name type r.
Proof. exact (proj1 (function_name_exact s) name type r). Qed.
Theorem C45_function_name_off s : sr_gdb_frame_parse_function_name s = UB <-> function_name_off s.
Proof. exact (proj2 (function_name_exact s)). Qed.
Theorem C45_arguments_exact s r : sr_gdb_frame_skip_function_args s = Ok r <-> exists u, s = L "(" ++ u /\ args 0 false u r.
Proof. exact (proj1 (skip_args_exact s) r). Qed.
Theorem C45_function_call_exact s name type r : sr_gdb_frame_parse_function_call s = Ok (name, type, r) <-> function_call s name type r.
Proof. exact (proj1 (function_call_exact s) name type r). Qed.
Theorem C45_function_call_off s : sr_gdb_frame_parse_function_call s = UB <-> function_call_off s.
Proof. exact (proj2 (function_call_exact s)). Qed.
Theorem C45_file_location_exact s file line r : sr_gdb_frame_parse_file_location s = Some (file, line, r) <-> file_location s file line r.
Proof. exact (file_location_iff s file line r). Qed.
Theorem C45_header_exact s f r : sr_gdb_frame_parse_header s = Ok (f, r) <-> frame_header s f r.
Proof. exact (proj1 (header_exact s) f r). Qed.
Theorem C45_header_off s : sr_gdb_frame_parse_header s = UB <-> frame_header_off s.
Proof. exact (proj2 (header_exact s)). Qed.
Theorem C45_frame_exact s f r : sr_gdb_frame_parse s = Ok (f, r) <-> gdb_frame_text s f r.
Proof. exact (proj1 (frame_exact s) f r). Qed.
Theorem C45_frame_off s : sr_gdb_frame_parse s = UB <-> frame_header_off s.
Proof. exact (proj2 (frame_exact s)). Qed.
(** A line "#1  0x1f in name (args) at file:2" parses to its frame. *)
Theorem C45_frame_roundtrip line f : frame_line_of line f -> sr_gdb_frame_parse_header line = Ok (f, []).
Proof. intros H. apply C45_header_exact. rewrite <- (app_nil_r line) at 1. apply line_header; [exact H|]. cbn. auto. Qed.

(** ** Threads and traces *)
Theorem C61_thread_exact s t r : sr_gdb_thread_parse s = Ok (t, r) <-> thread_text s t r.
Proof. exact (proj1 (thread_exact s) t r). Qed.
Theorem C61_thread_off s : sr_gdb_thread_parse s = UB <-> thread_off s.
Proof. exact (proj2 (thread_exact s)). Qed.
Theorem C61_trace_exact s crash ts r : sr_gdb_stacktrace_parse_threads s = Ok (crash, ts, r) <-> trace_text s crash ts r.
Proof. exact (proj1 (trace_exact s) crash ts r). Qed.
Theorem C61_trace_off s : sr_gdb_stacktrace_parse_threads s = UB <-> trace_off s.
Proof. exact (proj2 (trace_exact s)). Qed.
(** A trace in the usual form, with any number of threads and frames, parses to its crash frame and threads. *)
Theorem C61_usual_trace text crash threads : usual_trace text crash threads -> sr_gdb_stacktrace_parse_threads text = Ok (crash, threads, []).
Proof. exact (usual_trace_parses text crash threads). Qed.

(** ** Disagreements *)
(** A text that ends with the name of an operator, or with an opening parenthesis. *)
Theorem C45_off_refuted : sr_gdb_frame_parse_header (L "#1  a::operator+") = UB /\ sr_gdb_frame_parse_header (L "#1  main (") = UB.
Proof. vm_compute. auto. Qed.
(** An ordinary function whose name starts with "vtable" is no frame if it has an address. *)
Theorem C45_vtable_refuted : sr_gdb_frame_parse_header (L "#1  0x1f in vtable_init () at a.c:1") = Fail /\
  exists f, sr_gdb_frame_parse_header (L "#1  vtable_init () at a.c:1") = Ok (f, []) /\ gf_function_name f = Some (L "vtable_init").
Proof. split; [vm_compute; reflexivity|]. eexists. split; vm_compute; reflexivity. Qed.
(** A function of a type, whose name starts with "const". *)
Theorem C45_const_refuted : sr_gdb_frame_parse_header (L "#1  int construct (x=1) at a.c:1") = Fail /\
  exists f, sr_gdb_frame_parse_header (L "#1  int destruct (x=1) at a.c:1") = Ok (f, []) /\ gf_function_name f = Some (L "destruct") /\ gf_function_type f = Some (L "int").
Proof. split; [vm_compute; reflexivity|]. eexists. split; vm_compute; auto. Qed.
(** A name in an unnamed namespace after a type: the type is taken for the name and the namespace for the arguments. *)
Theorem C45_namespace_refuted : exists f, sr_gdb_frame_parse_header (L "#1  int (anonymous namespace)::f (x=1) at a.c:1") = Ok (f, L "::f (x=1) at a.c:1") /\
  gf_function_name f = Some (L "int") /\ gf_source_file f = None.
Proof. eexists. split; vm_compute; auto. Qed.
(** A newline and "#" in an argument: the rest of the frame is taken for the next one, and ends the thread. *)
Definition two_frames : str := L "#0  f (s=" ++ dquote :: L "a" ++ nl :: L "# b" ++ dquote :: L ") at a.c:1" ++ nl :: L "#1  main () at a.c:2" ++ [nl].
Theorem C61_newline_argument_refuted : exists t r, sr_gdb_thread_parse two_frames = Ok (t, r) /\ map gf_function_name (gt_frames t) = [Some (L "f")].
Proof. eexists _, _. split; vm_compute; reflexivity. Qed.
(** Without thread titles frame 0 is the crash frame, and no frame of the thread. *)
Definition untitled : str := L "x" ++ nl :: L "#0  f () at a.c:1" ++ nl :: L "#1  main () at a.c:2" ++ [nl].
Theorem C61_untitled_refuted : exists f t r, sr_gdb_stacktrace_parse_threads untitled = Ok (Some f, [t], r) /\
  gf_function_name f = Some (L "f") /\ map gf_function_name (gt_frames t) = [Some (L "main")].
Proof. eexists _, _, _. split; vm_compute; auto. Qed.
(** A title with a thread name ends the trace. *)
Definition named_thread : str := nl :: L "Thread 1 (LWP 5):" ++ nl :: L "#0  f () at a.c:1" ++ nl :: nl :: L "Thread 2 " ++ dquote :: L "w" ++ dquote :: L " (LWP 6):" ++ nl :: L "#0  g () at a.c:1" ++ [nl].
Theorem C61_thread_name_refuted : exists t r, sr_gdb_stacktrace_parse_threads named_thread = Ok (None, [t], r) /\ gt_tid t = 5%Z.
Proof. eexists _, _. split; vm_compute; reflexivity. Qed.

(** ** The hypotheses are met *)
Ltac num v := match goal with |- number32 ?s _ =>
    let H := fresh in let ds := fresh in assert (H : decimal s v []) by (apply decimal_iff; eexists; vm_compute; reflexivity);
    destruct H as (ds & H & ?H & _); rewrite app_nil_r in H; rewrite H; assumption end.
Ltac hex v := match goal with |- hexadecimal64 ?s _ =>
    let H := fresh in let ds := fresh in assert (H : hex_run s v []) by (apply hex_run_iff; eexists; vm_compute; reflexivity);
    destruct H as (ds & H & ?H64 & _); rewrite app_nil_r in H; rewrite H; assumption end.
Ltac nobegin := let x := fresh in let H := fresh in intros [x H]; discriminate.
Ltac word := split; [discriminate|]; split;
  [repeat (constructor; [first [right; reflexivity|left; apply alnum_iff, mem_In; vm_compute; reflexivity]|]); constructor|];
  split; [vm_compute; congruence|]; split; [nobegin|];
  let a := fresh in let b := fresh in let E := fresh in intros a b E; repeat (destruct a as [|? a]; [discriminate E|injection E as _ E]); destruct a; discriminate E.
Ltac no_marks := unfold without; repeat (constructor; [let H := fresh in intro H; apply mem_In in H; discriminate H|]); constructor.
Ltac file := split; [discriminate|]; split;
  [repeat (constructor; [apply file_char_iff, mem_In; vm_compute; reflexivity|]); constructor|];
  split; [let H := fresh in intro H; apply shared_object_iff in H; vm_compute in H; discriminate H|].
Definition line_a : str := L "#0  0x1f in do_it (x=1, p=0x0) at src/a.c:12".
Definition line_b : str := L "#1  main () at src/main.c:7".
Definition frame_a : gdb_frame := mk_gdb_frame (Some (L "do_it")) None 0 (Some (L "src/a.c")) 12 false 31 None.
Definition frame_b : gdb_frame := mk_gdb_frame (Some (L "main")) None 1 (Some (L "src/main.c")) 7 false 18446744073709551615 None.
Lemma line_a_frame : frame_line_of line_a frame_a.
Proof.
  exists (L "0"), 0%N, (Some (L "1f")), 31%Z, (L "do_it"), (L "x=1, p=0x0"), (L "src/a.c"), (L "12"), 12%N.
  split; [reflexivity|]. split; [num 0%N|]. split; [exists 31%N; split; [hex 31%N|reflexivity]|]. split; [word|]. split; [no_marks|]. file. split; [num 12%N|reflexivity].
Qed.
Lemma line_b_frame : frame_line_of line_b frame_b.
Proof.
  exists (L "1"), 1%N, None, 18446744073709551615%Z, (L "main"), [], (L "src/main.c"), (L "7"), 7%N.
  split; [reflexivity|]. split; [num 1%N|]. split; [reflexivity|]. split; [word|]. split; [no_marks|]. file. split; [num 7%N|reflexivity].
Qed.
Definition block2 : str := nl :: L "Thread 2 (Thread 0x7f3 (LWP 42)):" ++ nl :: line_a ++ nl :: line_b ++ [nl].
Definition block1 : str := nl :: L "Thread 1 (Thread 0x7f4 (LWP 41)):" ++ nl :: line_b ++ [nl].
Definition whole : str := L "Core was generated by `a'." ++ nl :: line_a ++ nl :: block2 ++ block1.
Lemma quiet_list s : existsb (fun k => starts_with (nl :: L "#") (skipn k s) || starts_with (nl :: L "Thread") (skipn k s)) (seq 0 (S (length s))) = false -> quiet s.
Proof.
  intros H pre t E. assert (G : forall w, (w = nl :: L "#" \/ w = nl :: L "Thread") -> ~ begins w t); [|split; apply G; auto].
  intros w Hw Hb. assert (X : existsb (fun k => starts_with (nl :: L "#") (skipn k s) || starts_with (nl :: L "Thread") (skipn k s)) (seq 0 (S (length s))) = true); [|congruence].
  apply existsb_exists. exists (length pre). split; [apply in_seq; rewrite E, app_length; lia|]. rewrite E, skipn_app_exact. apply starts_with_iff in Hb. destruct Hw as [->| ->]; rewrite Hb; [reflexivity|apply orb_true_r].
Qed.
Lemma whole_with rest : quiet (nl :: rest) -> usual_trace (whole ++ rest) (Some frame_a) [mk_gdb_thread 2 42 [frame_a; frame_b]; mk_gdb_thread 1 41 [frame_b]].
Proof.
  intros Hq. exists (L "Core was generated by `a'."), (nl :: line_a ++ [nl]), [block2; block1], rest. split; [unfold whole; cbn [concat]; rewrite app_nil_r, <- !app_assoc; reflexivity|]. split; [intros H; apply mem_In in H; discriminate H|]. split; [discriminate|]. split.
  - constructor; [|constructor; [|constructor]].
    + exists (L "2"), 2%N, (L "7f3"), (L "42"), 42%N, [line_a; line_b], [frame_a; frame_b]. split; [reflexivity|]. split; [num 2%N|]. split; [discriminate|].
      split; [repeat constructor; discriminate|]. split; [num 42%N|]. split; [discriminate|]. split; [|reflexivity]. constructor; [exact line_a_frame|]. constructor; [exact line_b_frame|constructor].
    + exists (L "1"), 1%N, (L "7f4"), (L "41"), 41%N, [line_b], [frame_b]. split; [reflexivity|]. split; [num 1%N|]. split; [discriminate|].
      split; [repeat constructor; discriminate|]. split; [num 41%N|]. split; [discriminate|]. split; [|reflexivity]. constructor; [exact line_b_frame|constructor].
  - split; [exact Hq|].
    right. exists line_a, frame_a. split; [reflexivity|]. split; [exact line_a_frame|reflexivity].
Qed.
Example C61_usual_trace_nonvacuous : usual_trace (whole ++ L "x") (Some frame_a) [mk_gdb_thread 2 42 [frame_a; frame_b]; mk_gdb_thread 1 41 [frame_b]].
Proof. apply whole_with, quiet_list. vm_compute. reflexivity. Qed.
Example C45_frame_roundtrip_nonvacuous : exists line f, frame_line_of line f /\ gf_address f = 31%Z.
Proof. exists line_a, frame_a. split; [exact line_a_frame|reflexivity]. Qed.
(** Frames of every kind *)
Example C45_kinds :
  (exists f, sr_gdb_frame_parse_header (L "#3  0x7f in std::map<int, char>::operator[] (this=0x1) from /usr/lib/libx.so.1") = Ok (f, []) /\
     gf_function_name f = Some (L "std::map<int, char>::operator[]") /\ gf_source_file f = None) /\
  (exists f, sr_gdb_frame_parse_header (L "#3  0x7f in ?? () from /usr/lib/libx.so.1") = Ok (f, []) /\ gf_function_name f = Some (L "??")) /\
  (exists f, sr_gdb_frame_parse_header (L "#3  <signal handler called>") = Ok (f, []) /\ gf_signal_handler_called f = true) /\
  (exists f, sr_gdb_frame_parse_header (L "#3  0x7f in vtable for X ()") = Ok (f, []) /\ gf_function_name f = Some (L "X")) /\
  (exists f, sr_gdb_frame_parse_header (L "#3  void ns::f<int> const (a=(b)) at x.cc:4") = Ok (f, []) /\
     gf_function_type f = Some (L "void") /\ gf_function_name f = Some (L "ns::f<int> const")).
Proof. repeat split; eexists; split; vm_compute; auto. Qed.
Example C45_function_name_off_nonvacuous : function_name_off (L "a::operator+").
Proof. apply C45_function_name_off. vm_compute. reflexivity. Qed.
Example C45_function_call_off_nonvacuous : function_call_off (L "main (").
Proof. apply C45_function_call_off. vm_compute. reflexivity. Qed.
Example C61_trace_off_nonvacuous : trace_off (L "x" ++ nl :: L "#0  main (").
Proof. apply C61_trace_off. vm_compute. reflexivity. Qed.
Example C61_trace_exact_nonvacuous : exists crash ts r, trace_text untitled crash ts r /\ length ts = 1 /\ crash <> None.
Proof. eexists _, _, _. split; [apply C61_trace_exact; vm_compute; reflexivity|]. split; [reflexivity|discriminate]. Qed.

Print Assumptions C45_frame_start_exact.
Print Assumptions C45_function_name_exact.
Print Assumptions C45_function_name_off.
Print Assumptions C45_arguments_exact.
Print Assumptions C45_function_call_exact.
Print Assumptions C45_function_call_off.
Print Assumptions C45_file_location_exact.
Print Assumptions C45_header_exact.
Print Assumptions C45_header_off.
Print Assumptions C45_frame_exact.
Print Assumptions C45_frame_off.
Print Assumptions C45_frame_roundtrip.
Print Assumptions C61_thread_exact.
Print Assumptions C61_thread_off.
Print Assumptions C61_trace_exact.
Print Assumptions C61_trace_off.
Print Assumptions C61_usual_trace.
Print Assumptions C45_off_refuted.
Print Assumptions C45_vtable_refuted.
Print Assumptions C45_const_refuted.
Print Assumptions C45_namespace_refuted.
Print Assumptions C61_newline_argument_refuted.
Print Assumptions C61_untitled_refuted.
Print Assumptions C61_thread_name_refuted.
