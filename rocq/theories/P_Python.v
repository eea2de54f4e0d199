(** * C42: the Python traceback parser. *)
From Verif Require Import Base Types UtilsSpec UtilsModel JsonModel ParseSpec ParseModel PyParseModel PyParseSpec PyParseProofs.
Open Scope nat_scope.

(** The parser accepts exactly the texts that hold a traceback, with exactly that traceback as result and
    the cursor behind the exception name. *)
Theorem C42_accepts_exactly s t rest : sr_python_stacktrace_parse s = Ok (t, rest) <-> py_text s t rest.
Proof. exact (py_iff s t rest). Qed.
(** It reads beyond the end of the text exactly when the text ends where a frame could start. *)
Theorem C42_reads_beyond_exactly s : sr_python_stacktrace_parse s = UB <-> exists r, py_start s r /\ py_runs_out r.
Proof. exact (py_UB_iff s). Qed.
Theorem C42_frame_exact s f q : sr_python_frame_parse s = Ok (Some f, q) <-> exists r, py_passed s r /\ py_frame_text r f q.
Proof. exact (py_frame_iff s f q). Qed.
Theorem C42_frame_reads_beyond_exactly s : sr_python_frame_parse s = UB <-> pointers s.
Proof. exact (py_frame_UB_iff s). Qed.
(** A formatted traceback, outermost frame first, comes back innermost frame first with its exception name. *)
Theorem C42_roundtrip fs texts class rest : Forall2 (py_shows print_N) fs texts -> fs <> [] ->
  without [":"%char; nl] class -> (exists c r, class = c :: r /\ ~ In c (L " ^~")) -> stops_at [":"%char; nl] rest ->
  sr_python_stacktrace_parse (header ++ concat texts ++ class ++ rest) = Ok (mk_python_stacktrace (Some class) (rev fs), rest).
Proof. exact (py_roundtrip fs texts class rest). Qed.

(** The parser does read beyond the end of a traceback without an exception line. *)
Theorem C42_safe_refuted : exists s, sr_python_stacktrace_parse s = UB.
Proof. exists (header ++ L "  File ""a"", line 1, in f" ++ [nl] ++ L "    x" ++ [nl]). reflexivity. Qed.

Ltac chars := repeat constructor; intros H; repeat (destruct H as [H|H]; [discriminate H|]); contradiction H.
Ltac notin := intros H; repeat (destruct H as [H|H]; [discriminate H|]); contradiction H.
Definition py_a := mk_python_frame false (Some (L "/usr/bin/x")) 12 true (Some (L "module")) (Some (L "main()")).
Definition py_b := mk_python_frame true (Some (L "string")) 4294967295 false (Some (L "main")) None.
Example showable_a : py_showable py_a (L "/usr/bin/x") (L "module").
Proof.
  split; [reflexivity|]. split; [reflexivity|]. split; [cbn; lia|]. split; [notin|]. split; [intros [r E]; discriminate E|]. split; [intros _; split; [discriminate|intros inner E; discriminate E]|].
  split; [notin|]. split; [discriminate|]. intros line E. injection E as <-. split; [discriminate|notin].
Qed.
Example showable_b : py_showable py_b (L "string") (L "main").
Proof.
  split; [reflexivity|]. split; [reflexivity|]. split; [cbn; lia|]. split; [notin|]. split; [intros [r E]; discriminate E|]. split; [discriminate|].
  split; [notin|]. split; [intros _; split; [discriminate|intros inner E; discriminate E]|]. discriminate.
Qed.
Example whole : sr_python_stacktrace_parse (header ++ L "  File ""/usr/bin/x"", line 12, in <module>" ++ [nl] ++ L "    main()" ++ [nl] ++ L "    ~~~~^^" ++ [nl] ++
    L "  File ""<string>"", line 4294967295, in main" ++ [nl] ++ L "ZeroDivisionError: division by zero") =
  Ok (mk_python_stacktrace (Some (L "ZeroDivisionError")) [py_b; py_a], L ": division by zero").
Proof.
  refine (C42_roundtrip [py_a; py_b] [py_show_frame print_N py_a (L "/usr/bin/x") (L "module") ++ L "    ~~~~^^" ++ [nl]; py_show_frame print_N py_b (L "string") (L "main")] (L "ZeroDivisionError") (L ": division by zero") _ _ _ _ _); [|discriminate|chars|eexists; eexists; split; [reflexivity|notin]|left; reflexivity].
  constructor; [apply (py_marked _ py_a _ _ (L "main()") (L "    ~~~~^^") showable_a); [reflexivity|repeat (apply Forall_cons; [cbn; tauto|]); apply Forall_nil]|]. constructor; [exact (py_shown _ py_b _ _ showable_b)|constructor].
Qed.
Example whole_text : exists s t rest, py_text s t rest /\ length (ps_frames t) = 2 /\ rest <> [].
Proof. eexists. eexists. eexists. split; [apply C42_accepts_exactly; exact whole|]. split; [reflexivity|discriminate]. Qed.
Example rejected : sr_python_stacktrace_parse (L "no traceback") = Fail /\ sr_python_stacktrace_parse (header ++ L "Error: none") = Fail /\
  sr_python_stacktrace_parse (header ++ L "  File ""a"", line 1, in f" ++ [nl] ++ L ": x") = Fail.
Proof. repeat split. Qed.

Print Assumptions C42_accepts_exactly.
Print Assumptions C42_reads_beyond_exactly.
Print Assumptions C42_frame_exact.
Print Assumptions C42_frame_reads_beyond_exactly.
Print Assumptions C42_roundtrip.
Print Assumptions C42_safe_refuted.
