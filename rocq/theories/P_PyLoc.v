(** * C86: where and why a Python text is refused *)
From Verif Require Import Base Types UtilsSpec UtilsModel JsonModel ParseSpec PyParseModel PyParseSpec LocParseModel LocParseSpec PyLocModel PyLocSpec LocParseProofs PyLocProofs PyLocProofs2.
Open Scope nat_scope.

(** A Python text gives a stack trace exactly when it is one; otherwise it goes wrong and gives an error, unless it ends where a frame could start. *)
Theorem C86_python_either text :
  (exists t rest, parse_wrapper python_stacktrace_loc text = Ok (inl t) /\ py_text text t rest /\ forall why ln col, ~ py_wrong text why ln col) \/
  (exists why ln col, parse_wrapper python_stacktrace_loc text = Ok (inr (L "Line " ++ print_Z ln ++ L ", column " ++ print_Z col ++ L ": " ++ why)) /\ py_wrong text why ln col /\ forall t rest, ~ py_text text t rest) \/
  (parse_wrapper python_stacktrace_loc text = UB /\ exists r, py_start text r /\ py_runs_out r).
Proof. exact (py_total text). Qed.
(** The error tells what is wrong, and the line and column counted for it; no other error is given. *)
Theorem C86_python_error text m : parse_wrapper python_stacktrace_loc text = Ok (inr m) <->
  exists why ln col, py_wrong text why ln col /\ m = L "Line " ++ print_Z ln ++ L ", column " ++ print_Z col ++ L ": " ++ why.
Proof. exact (py_error text m). Qed.
(** There is one such reason and one such place. *)
Theorem C86_python_one_reason text why ln col why' ln' col' : py_wrong text why ln col -> py_wrong text why' ln' col' -> why = why' /\ ln = ln' /\ col = col'.
Proof. exact (py_wrong_fun text why ln col why' ln' col'). Qed.
(** What is no frame has one reason for it, and a frame has none. *)
Theorem C86_python_frame_reason s :
  ((exists f q, py_frame_text s f q) \/ (exists why, py_frame_wrong why s)) /\ (forall why f q, py_frame_wrong why s -> ~ py_frame_text s f q) /\ (forall why why', py_frame_wrong why s -> py_frame_wrong why' s -> why = why').
Proof. split; [exact (frame_or_wrong s)|]. split; [intros why f q; exact (frame_wrong_none why s f q)|intros why why'; exact (frame_wrong_fun why why' s)]. Qed.
(** A frame, wherever the location stands. *)
Theorem C86_python_frame s l : match python_frame_loc s l with
  | Took (Some f, q) l' => exists r w, py_passed s r /\ py_frame_text r f q /\ py_width r w /\ l' = mk_location (line l) (column l + Z.of_nat w) (message l)
  | Took (None, r) l' => py_passed s r /\ exists why, py_frame_wrong why r /\ message l' = Some why
  | Refused _ => False
  | Broken => pointers s
  end.
Proof. exact (py_frame_told s l). Qed.
(** The location is left at the line of the first frame. *)
Theorem C86_python_place text : match python_stacktrace_loc text sr_location_init with
  | Took (t, rest) l => py_text text t rest /\ exists r ws after ln col, py_place text r ln col /\ py_run r ws after /\ l = mk_location ln (col + Z.of_nat (stairs 0 ws)) None
  | Refused l => exists why ln col, py_wrong text why ln col /\ l = mk_location ln col (Some why)
  | Broken => exists r, py_start text r /\ py_runs_out r
  end.
Proof. exact (py_loc text). Qed.
(** Below a header the line told is the true one when the text starts with a newline, and one too far otherwise. *)
Theorem C86_python_line text pre r s1 ln col : text = pre ++ r -> py_below text s1 -> first_at header s1 (header ++ r) -> py_place text r ln col ->
  if match text with c :: _ => Ascii.eqb c nl | [] => false end then pos_of pre ln col else pos_of pre (ln - 1) col.
Proof. exact (place_true text pre r s1 ln col). Qed.
(** Apart from the location these are the parsers of C42. *)
Theorem C86_python_same text : forget (python_stacktrace_loc text sr_location_init) = sr_python_stacktrace_parse text.
Proof. exact (forget_py text). Qed.
Theorem C86_python_same_frame s l : forget (python_frame_loc s l) = sr_python_frame_parse s.
Proof. exact (forget_py_frame s l). Qed.

Definition head : str := L "Traceback (most recent call last):" ++ [nl].
Definition frame1 : str := L "  File ""/a.py"", line 1, in f" ++ [nl] ++ L "    g()" ++ [nl].
(** The line told is not the line of the text. *)
Theorem C86_python_line_refuted : exists pre suf, parse_wrapper python_stacktrace_loc (pre ++ suf) = Ok (inr (L "Line 3, column 0: Frame header not found.")) /\ suf = L "x" /\ pos_of pre 2 0.
Proof.
  exists head, (L "x"). split; [vm_compute; reflexivity|]. split; [reflexivity|]. exists head, []. split; [rewrite app_nil_r; reflexivity|]. split; [intros []|]. split; [right; eexists; reflexivity|]. split; vm_compute; reflexivity.
Qed.
(** The lines of the frames are not counted; their columns are, the earlier the frame the more often. *)
Theorem C86_python_columns_refuted : exists pre suf, parse_wrapper python_stacktrace_loc (pre ++ suf) = Ok (inr (L "Line 3, column 84: Unable to find the ':\n' characters identifying the end of exception name.")) /\ suf = L ": x" /\ pos_of pre 6 0.
Proof.
  exists (head ++ frame1 ++ frame1), (L ": x"). split; [vm_compute; reflexivity|]. split; [reflexivity|]. exists (head ++ frame1 ++ frame1), []. split; [rewrite app_nil_r; reflexivity|]. split; [intros []|].
  split; [right; exists (head ++ frame1 ++ L "  File ""/a.py"", line 1, in f" ++ [nl] ++ L "    g()"); reflexivity|]. split; vm_compute; reflexivity.
Qed.
(** When there is no header, the place told is behind the last "i" of the text. *)
Theorem C86_python_header_refuted : parse_wrapper python_stacktrace_loc (L "TypeError: this" ++ [nl] ++ L "is it") = Ok (inr (L "Line 2, column 4: Traceback header not found.")).
Proof. vm_compute. reflexivity. Qed.
(** The place of the frame of a syntax error is counted from the words "invalid syntax". *)
Theorem C86_python_syntax_refuted : parse_wrapper python_stacktrace_loc (L "a" ++ [nl] ++ L "b" ++ [nl] ++ L "invalid syntax (x)") = Ok (inr (L "Line 1, column 15: Frame with invalid line not found.")).
Proof. vm_compute. reflexivity. Qed.

(** ** The hypotheses are met *)
Example C86_python_good : exists t, python_stacktrace_loc ([nl] ++ head ++ frame1 ++ L "E: x") sr_location_init = Took (t, L ": x") (mk_location 3 28 None).
Proof. eexists. vm_compute. reflexivity. Qed.
Example C86_python_bad_number : parse_wrapper python_stacktrace_loc ([nl] ++ head ++ L "  File ""/a.py"", line x") = Ok (inr (L "Line 3, column 0: Line number not found.")).
Proof. vm_compute. reflexivity. Qed.
Example C86_python_bad_in : parse_wrapper python_stacktrace_loc (head ++ L "  File ""/a.py"", line 7 in f") = Ok (inr (L "Line 3, column 0: Function name separator not found.")).
Proof. vm_compute. reflexivity. Qed.
Example C86_python_bad_name : parse_wrapper python_stacktrace_loc (head ++ L "  File """", line 7") = Ok (inr (L "Line 3, column 0: Unable to find the '""' character identifying the beginning of file name.")).
Proof. vm_compute. reflexivity. Qed.
Example C86_python_bad_function : parse_wrapper python_stacktrace_loc (head ++ L "  File ""<stdin>"", line 7, in " ++ [nl]) = Ok (inr (L "Line 3, column 0: Unable to find the newline character identifying the end of function name.")).
Proof. vm_compute. reflexivity. Qed.
Example C86_python_bad_line : parse_wrapper python_stacktrace_loc (head ++ L "  File ""a"" line 7") = Ok (inr (L "Line 3, column 0: Line separator not found.")).
Proof. vm_compute. reflexivity. Qed.
Example C86_python_syntax : exists t, python_stacktrace_loc (L "invalid syntax (a.py, line 1)" ++ [nl] ++ L "  File ""/home/u/a.py"", line 1" ++ [nl] ++ L "    x y" ++ [nl] ++ L "      ^" ++ [nl] ++ L "SyntaxError: invalid syntax") sr_location_init = Took (t, L ": invalid syntax") (mk_location 2 38 None).
Proof. eexists. vm_compute. reflexivity. Qed.
Example C86_python_met : exists text pre r s1 ln col, text = pre ++ r /\ py_below text s1 /\ first_at header s1 (header ++ r) /\ py_place text r ln col.
Proof.
  assert (F : first_at header (header ++ L "x") (header ++ L "x")) by (exists []; split; [reflexivity|]; split; [eexists; reflexivity|]; intros; cbn; lia).
  exists (header ++ L "x"), header, (L "x"), (header ++ L "x"), 3%Z, 0%Z. split; [reflexivity|]. assert (B : py_below (header ++ L "x") (header ++ L "x")) by (right; split; [reflexivity|intros [z Ez]; discriminate Ez]). split; [exact B|]. split; [exact F|].
  refine (pp_header (header ++ L "x") (L "x") _ [] 1 0 B eq_refl F _). exists [], []. split; [reflexivity|]. split; [intros []|]. split; [left; reflexivity|]. split; reflexivity.
Qed.
Print Assumptions C86_python_either.
Print Assumptions C86_python_error.
Print Assumptions C86_python_one_reason.
Print Assumptions C86_python_frame_reason.
Print Assumptions C86_python_frame.
Print Assumptions C86_python_place.
Print Assumptions C86_python_line.
Print Assumptions C86_python_same.
Print Assumptions C86_python_same_frame.
Print Assumptions C86_python_line_refuted.
Print Assumptions C86_python_columns_refuted.
Print Assumptions C86_python_header_refuted.
Print Assumptions C86_python_syntax_refuted.
