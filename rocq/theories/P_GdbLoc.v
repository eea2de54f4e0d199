(** * C87: where and why a gdb text is refused *)
From Verif Require Import Base Types UtilsSpec UtilsModel UtilsProofs JsonModel ParseSpec KoopsSpec GdbParseModel GdbParseSpec LocParseModel LocParseProofs GdbLocModel GdbLocSpec
  GdbParseProofs3 GdbParseProofs6 GdbLocProofs GdbLocProofs3 GdbLocProofs4 GdbLocProofs5.
Open Scope nat_scope.

(** A gdb text gives threads exactly when it has them; otherwise it goes wrong and gives an error, unless it ends inside of a name or an argument list. *)
Theorem C87_gdb_either text :
  (exists crash ts rest, parse_wrapper gdb_trace_loc text = Ok (inl (crash, ts)) /\ trace_text text crash ts rest /\ forall why u, ~ trace_wrong why text u) \/
  (exists why u ln col, parse_wrapper gdb_trace_loc text = Ok (inr (L "Line " ++ print_Z ln ++ L ", column " ++ print_Z col ++ L ": " ++ why)) /\ trace_wrong why text u /\ pos_of u ln col /\
     forall crash ts rest, ~ trace_text text crash ts rest) \/
  (parse_wrapper gdb_trace_loc text = UB /\ trace_off text).
Proof. exact (gdb_total text). Qed.
(** The error tells what is wrong with the first frame or thread, and the line and column counted for it; no other error is given. *)
Theorem C87_gdb_error text m : parse_wrapper gdb_trace_loc text = Ok (inr m) <->
  exists why u ln col, trace_wrong why text u /\ pos_of u ln col /\ m = L "Line " ++ print_Z ln ++ L ", column " ++ print_Z col ++ L ": " ++ why.
Proof. exact (gdb_error text m). Qed.
(** There is one such reason and one such place. *)
Theorem C87_gdb_one_reason text why u why' u' ln col ln' col' :
  trace_wrong why text u -> trace_wrong why' text u' -> pos_of u ln col -> pos_of u' ln' col' -> why = why' /\ ln = ln' /\ col = col'.
Proof. exact (gdb_one text why u why' u' ln col ln' col'). Qed.
(** A frame, wherever the location stands: a refused frame says why and where; a frame read is counted once for its header and once more for all of it. *)
Theorem C87_gdb_frame s l : match gdb_frame_loc s l with
  | Took (f, r) l' => gdb_frame_text s f r /\ exists h c ln col, header_counts s h /\ s = c ++ r /\ counts_to (line l) (column l) (h ++ c) ln col /\ l' = mk_location ln col (message l)
  | Refused l' => (forall f r, ~ gdb_frame_text s f r) /\ exists why u ln col, frame_wrong why s u /\ counts_to (line l) (column l) u ln col /\ l' = mk_location ln col (Some why)
  | Broken => frame_header_off s
  end.
Proof. exact (frame_told s l). Qed.
(** A thread, wherever the location stands: a refused thread says why and where; for a thread read its title is counted, and each frame together with all those above it. *)
Theorem C87_gdb_thread s l : match gdb_thread_loc s l with
  | Took (t, r) l' => thread_text s t r /\ exists number tid q p v ln col, thread_start s number tid q /\ s = p ++ q /\ frames_counts [] q v /\ counts_to (line l) (column l) (p ++ v) ln col /\ l' = mk_location ln col (message l)
  | Refused l' => (forall t r, ~ thread_text s t r) /\ exists why u ln col, thread_wrong why s u /\ counts_to (line l) (column l) u ln col /\ l' = mk_location ln col (Some why)
  | Broken => thread_off s
  end.
Proof. exact (thread_told s l). Qed.
(** Unless a crash frame precedes the threads, the place told is a place of the text. *)
Theorem C87_gdb_place why text u : trace_wrong why text u -> (forall t, ~ crash_frame_at text t) -> exists rest, text = u ++ rest.
Proof. exact (place_true why text u). Qed.
(** If the crash frame is refused, it is one up to the newlines in the name of a function. *)
Theorem C87_gdb_place_crash why text u t : trace_wrong why text u -> crash_frame_at text t -> (forall f r, ~ gdb_frame_text t f r) -> exists u' rest, text = u' ++ rest /\ flat u = flat u'.
Proof. exact (place_flat why text u t). Qed.
(** Apart from the location these are the parsers of C45. *)
Theorem C87_gdb_same text l : forget (gdb_trace_loc text l) = sr_gdb_stacktrace_parse_threads text.
Proof. exact (forget_gdb text l). Qed.
Theorem C87_gdb_same_thread s l : forget (gdb_thread_loc s l) = sr_gdb_thread_parse s.
Proof. exact (forget_gdb_thread s l). Qed.
Theorem C87_gdb_same_frame s l : forget (gdb_frame_loc s l) = sr_gdb_frame_parse s.
Proof. exact (forget_gdb_frame s l). Qed.

(** The parenthesis that closes the title is not counted. *)
Theorem C87_gdb_colon_refuted : exists pre suf, parse_wrapper gdb_trace_loc (pre ++ suf) = Ok (inr (L "Line 2, column 18: Expected a colon followed by a newline ':\n'.")) /\ suf = L " x" /\ pos_of pre 2 19.
Proof. exists (nl :: L "Thread 1 (Thread 2)"), (L " x"). split; [vm_compute; reflexivity|]. split; [reflexivity|]. exact (eat_all_pos (nl :: L "Thread 1 (Thread 2)")). Qed.
(** A newline in the name of a function is counted as a column. *)
Theorem C87_gdb_name_refuted : exists pre suf, parse_wrapper gdb_trace_loc (pre ++ suf) = Ok (inr (L "Line 2, column 25: Function call in the frame header misses mandatory ""at file.c:xy"" section")) /\ suf = L " x" /\ pos_of pre 3 8.
Proof.
  exists (nl :: L "#0  0x1< [with b" ++ nl :: L "=c]> (x)"), (L " x"). split; [vm_compute; reflexivity|]. split; [reflexivity|]. exact (eat_all_pos (nl :: L "#0  0x1< [with b" ++ nl :: L "=c]> (x)")).
Qed.
(** After a crash frame the lines and columns of its header are counted once more. *)
Theorem C87_gdb_crash_refuted :
  (exists pre suf, parse_wrapper gdb_trace_loc (pre ++ suf) = Ok (inr (L "Line 5, column 0: Frame start sequence expected.")) /\ suf = L "#x" /\ pos_of pre 4 0) /\
  (exists text, parse_wrapper gdb_trace_loc text = Ok (inr (L "Line 2, column 36: Frame start sequence expected.")) /\ pos_of text 2 18).
Proof.
  split.
  - exists (nl :: L "#0  f" ++ nl :: L " (x) at a.c:1" ++ [nl]), (L "#x"). split; [vm_compute; reflexivity|]. split; [reflexivity|]. exact (eat_all_pos (nl :: L "#0  f" ++ nl :: L " (x) at a.c:1" ++ [nl])).
  - exists (nl :: L "#0  f (x) at a.c:1"). split; [vm_compute; reflexivity|]. exact (eat_all_pos (nl :: L "#0  f (x) at a.c:1")).
Qed.
(** What is wrong inside of a call is not told: the address is followed by no "in", the arguments are not closed, the reason is the same. *)
Theorem C87_gdb_detail_refuted :
  parse_wrapper gdb_trace_loc (nl :: L "#0  0x1f on f () at a.c:1") = Ok (inr (L "Line 2, column 4: Frame header variant not recognized.")) /\
  parse_wrapper gdb_trace_loc (nl :: L "#0  f (x at a.c:1") = Ok (inr (L "Line 2, column 4: Frame header variant not recognized.")).
Proof. split; vm_compute; reflexivity. Qed.

(** ** Examples *)
Example no_frame : parse_wrapper gdb_trace_loc (L "abc") = Ok (inr (L "Line 1, column 0: No frame and no thread found.")).
Proof. vm_compute. reflexivity. Qed.
Example no_number : parse_wrapper gdb_trace_loc (L "abc" ++ nl :: L "Thread x") = Ok (inr (L "Line 2, column 7: Thread number expected.")).
Proof. vm_compute. reflexivity. Qed.
Example no_thread_frame : parse_wrapper gdb_trace_loc (L "abc" ++ nl :: L "Thread 1 (LWP 2):" ++ nl :: L "x") = Ok (inr (L "Line 3, column 0: Frame start sequence expected.")).
Proof. vm_compute. reflexivity. Qed.
Example no_colon : parse_wrapper gdb_trace_loc (nl :: L "Thread 1 (LWP 2) (Thread x):") = Ok (inr (L "Line 2, column 16: Expected a colon followed by a newline ':\n'.")).
Proof. vm_compute. reflexivity. Qed.
Example no_id : parse_wrapper gdb_trace_loc (nl :: L "Thread 1 (Thread x):") = Ok (inr (L "Line 2, column 17: The thread identification number expected.")).
Proof. vm_compute. reflexivity. Qed.
Example good_trace : exists ts, parse_wrapper gdb_trace_loc (L "abc" ++ nl :: L "Thread 1 (LWP 2):" ++ nl :: L "#0  f (x) at a.c:1") = Ok (inl (None, ts)) /\ ts <> [].
Proof. eexists. split; [vm_compute; reflexivity|discriminate]. Qed.
(** Reasons of these kinds exist. *)
Example wrong_number : trace_wrong (L "Thread number expected.") (L "abc" ++ nl :: L "Thread x") (L "abc" ++ nl :: L "Thread ") /\ forall t, ~ crash_frame_at (L "abc" ++ nl :: L "Thread x") t.
Proof.
  assert (N : no_entry (L "#") (L "abc" ++ nl :: L "Thread x")).
  { destruct (entry_cases (L "#") (L "abc" ++ nl :: L "Thread x")) as [(r & _ & E)|[H _]]; [vm_compute in E; discriminate E|exact H]. }
  split; [|intros t [H _]; exact (N _ H)].
  apply (gw_threads (L "Thread number expected.") (L "abc" ++ nl :: L "Thread x") (L "abc" ++ [nl]) (L "Thread x") (L "Thread ")); [reflexivity| |].
  - split; [|intros u H; exfalso; exact (N _ H)]. destruct (entry_cases (L "Thread ") (L "abc" ++ nl :: L "Thread x")) as [(r & H & E)|[_ E]]; vm_compute in E; [|discriminate E]. injection E as <-. exact H.
  - apply hw_title. apply (tw_number (L "Thread ") (L " x") (L "x")); [reflexivity|exists 0; split; [reflexivity|intros [t E]; discriminate E]|].
    intros n r (ds & E & (Hd & _) & _). apply (numeral_horner decimal_digit 10 _ digit_val_dec) in Hd as (_ & Hne & Hf). destruct ds as [|c ds]; [congruence|]. injection E as <- _. inversion Hf as [|a b Hc]; subst. apply mem_In in Hc. discriminate Hc.
Qed.
Example frame_counted : gdb_frame_loc (L "#0  f (x) at a.c:1") (mk_location 7 3 None) =
  Took (mk_gdb_frame (Some (L "f")) None 0 (Some (L "a.c")) 1 false no_address None, []) (mk_location 7 39 None).
Proof. vm_compute. reflexivity. Qed.
Example thread_counted : forall f, exists ts, gdb_thread_loc (L "Thread 1 (LWP 2):" ++ nl :: L "#0  f () at a.c:1" ++ nl :: L "#1  g () at a.c:1") (mk_location 7 3 f) = Took (ts, []) (mk_location 10 34 f).
Proof. intros f. eexists. vm_compute. reflexivity. Qed.
Print Assumptions C87_gdb_either.
Print Assumptions C87_gdb_error.
Print Assumptions C87_gdb_one_reason.
Print Assumptions C87_gdb_frame.
Print Assumptions C87_gdb_thread.
Print Assumptions C87_gdb_place.
Print Assumptions C87_gdb_place_crash.
Print Assumptions C87_gdb_same.
Print Assumptions C87_gdb_same_thread.
Print Assumptions C87_gdb_same_frame.
Print Assumptions C87_gdb_colon_refuted.
Print Assumptions C87_gdb_name_refuted.
Print Assumptions C87_gdb_crash_refuted.
Print Assumptions C87_gdb_detail_refuted.
