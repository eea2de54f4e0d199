(** * C85: where and why a Java text is refused *)
From Verif Require Import Base Types UtilsSpec UtilsModel JsonModel RpmSpec ParseSpec PyParseSpec JavaParseModel JavaParseSpec JavaParseProofs3 LocParseModel LocParseSpec JavaLocModel JavaLocSpec LocParseProofs JavaLocProofs JavaLocProofs5.
Open Scope nat_scope.

(** A Java text gives a stack trace exactly when it is one, and otherwise it goes wrong and gives an error; never neither. *)
Theorem C85_java_either text :
  (exists th rest, parse_wrapper java_stacktrace_loc text = Ok (inl (mk_java_stacktrace [th])) /\ java_thread_text text th rest /\ forall why suf, ~ java_wrong why text suf) \/
  (exists m why suf, parse_wrapper java_stacktrace_loc text = Ok (inr m) /\ java_wrong why text suf /\ forall th rest, ~ java_thread_text text th rest).
Proof. exact (java_total text). Qed.
(** The error tells what is wrong, and the line and column counted up to there. *)
Theorem C85_java_error text m : parse_wrapper java_stacktrace_loc text = Ok (inr m) ->
  exists why pre suf ln col, text = pre ++ suf /\ java_wrong why text suf /\ counted text pre ln col /\ m = L "Line " ++ print_Z ln ++ L ", column " ++ print_Z col ++ L ": " ++ why.
Proof. exact (java_told text m). Qed.
(** There is one such place and one such reason. *)
Theorem C85_java_one_reason why text suf why' suf' : java_wrong why text suf -> java_wrong why' text suf' -> why = why' /\ suf = suf'.
Proof. exact (java_wrong_fun why text suf why' suf'). Qed.
(** A line and column counted in a text without newlines behind blanks are the true ones. *)
Theorem C85_java_counted text pre suf ln col : plain_lines text -> counted text pre ln col -> text = pre ++ suf -> pos_of pre ln col.
Proof. intros Hp Hc. exact (counted_plain text Hp pre ln col Hc suf). Qed.
(** The location is left where the stack trace ends, or one column before that at the end of the text. *)
Theorem C85_java_place text : match java_stacktrace_loc text sr_location_init with
  | Took (t, rest) l => (exists th, t = mk_java_stacktrace [th] /\ java_thread_text text th rest) /\
      exists pre short, text = pre ++ rest /\ counted text pre (line l) (column l + short) /\ (short = 0 \/ (short = 1 /\ rest = []))%Z
  | Refused l => exists why pre suf, text = pre ++ suf /\ java_wrong why text suf /\ counted text pre (line l) (column l) /\ message l = Some why
  | Broken => False
  end.
Proof. exact (java_loc text). Qed.
(** A frame, anywhere in a text. *)
Theorem C85_java_frame text p s l : text = p ++ s -> counted text p (line l) (column l) -> match java_frame_loc s l with
  | Took (f, rest) l' => java_frame_text s f rest /\ message l' = message l /\
      exists pre, text = pre ++ rest /\ (counted text pre (line l') (column l') \/ (rest = [] /\ counted text pre (line l') (column l' + 1)))
  | Refused l' => l' = mk_location (line l) (column l) (Some (L "Frame expected")) /\ forall f rest, ~ java_frame_text s f rest
  | Broken => False
  end.
Proof. exact (java_frame_where text p s l). Qed.
(** Apart from the location these are the parsers of C43. *)
Theorem C85_java_same text l : forget (java_stacktrace_loc text l) = sr_java_stacktrace_parse text.
Proof. exact (forget_java text l). Qed.
(** A stack trace as Java prints it is refused when a blank line follows. *)
Theorem C85_java_blank_line_refuted k ws : link_ok java_shows k -> jk_elision k = [] -> ws <> [] -> blank ws ->
  exists m, parse_wrapper java_stacktrace_loc (link_text k ++ ws) = Ok (inr m) /\ java_wrong (L "Frame expected") (link_text k ++ ws) [].
Proof. exact (trailing_blank k ws). Qed.
(** Newlines among blanks are counted as columns. *)
Theorem C85_java_line_refuted : exists pre suf, parse_wrapper java_stacktrace_loc (pre ++ suf) = Ok (inr (L "Line 1, column 2: Expected exception name")) /\
  java_wrong (L "Expected exception name") (pre ++ suf) suf /\ pos_of pre 3 0.
Proof.
  exists [nl; nl], (L ": x"). split; [vm_compute; reflexivity|]. split.
  - apply jt_bare; [intros [z Ez]; discriminate Ez|]. apply jx_name; [|right; eexists; reflexivity]. exists [nl; nl]. split; [reflexivity|]. split; [repeat (apply Forall_cons; [cbn; auto 10|]); apply Forall_nil|]. cbn. intros H. repeat (destruct H as [H|H]; [discriminate|]). exact H.
  - exists [nl; nl], []. split; [reflexivity|]. split; [intros []|]. split; [right; exists [nl]; reflexivity|]. split; reflexivity.
Qed.
(** The quotation mark behind the name of a thread is counted as the newline that follows it. *)
Theorem C85_java_quote_refuted : exists pre suf, parse_wrapper java_stacktrace_loc (pre ++ suf) = Ok (inr (L "Line 2, column 1: Expected exception name")) /\
  java_wrong (L "Expected exception name") (pre ++ suf) suf /\ pos_of pre 2 0.
Proof.
  exists (L "Exception in thread ""main""" ++ [nl]), (L ": x"). split; [vm_compute; reflexivity|]. split.
  - apply (jt_named _ (L "main") ([nl] ++ L ": x")); [repeat constructor; cbn; intuition discriminate|]. apply jx_name; [|right; eexists; reflexivity]. exists [nl]. split; [reflexivity|]. split; [repeat (apply Forall_cons; [cbn; auto 10|]); apply Forall_nil|].
    cbn. intros H. repeat (destruct H as [H|H]; [discriminate|]). exact H.
  - exists (L "Exception in thread ""main""" ++ [nl]), []. split; [rewrite app_nil_r; reflexivity|]. split; [intros []|]. split; [right; eexists; reflexivity|]. vm_compute. auto.
Qed.

(** ** The hypotheses are met *)
Example C85_java_bad_cause : parse_wrapper java_stacktrace_loc (L "a.B: c" ++ [nl; tab] ++ L "at d.e(F.java:1)" ++ [nl] ++ L "Caused by: : g") = Ok (inr (L "Line 3, column 11: Expected exception name")).
Proof. vm_compute. reflexivity. Qed.
Example C85_java_bad_frame : parse_wrapper java_stacktrace_loc (L "a.B" ++ [nl; tab] ++ L "at d.e(F.java:1)" ++ [nl; tab] ++ L "... 1 more" ++ [nl] ++ L "Caused by: g" ++ [nl; tab] ++ L "in h") = Ok (inr (L "Line 5, column 1: Frame expected")).
Proof. vm_compute. reflexivity. Qed.
Example C85_java_bad_thread : parse_wrapper java_stacktrace_loc (L "Exception in thread ""main" ++ [nl]) = Ok (inr (L "Line 1, column 25: ""Thread"" name end expected")).
Proof. vm_compute. reflexivity. Qed.
Example C85_java_short : exists t, java_stacktrace_loc (L "a.B" ++ [nl; tab] ++ L "at d") sr_location_init = Took (t, []) (mk_location 2 4 None).
Proof. eexists. vm_compute. reflexivity. Qed.
Example C85_java_url : exists f, java_frame_loc (L "at a.b(C.java:12) [jar:file:/d/e.jar!/f.class]" ++ [nl] ++ L "x") sr_location_init = Took (f, L "x") (mk_location 2 0 None).
Proof. eexists. vm_compute. reflexivity. Qed.
Example C85_java_plain : plain_lines (L "a.B: c" ++ [nl; tab] ++ L "at d.e(F.java:1)" ++ [nl] ++ L "Caused by: : g").
Proof.
  assert (G : forall (a p q : str) b c r, a ++ b :: c :: nl :: r = p ++ nl :: q -> ~ In nl a -> b <> nl -> c <> nl -> (p = a ++ [b; c] /\ q = r) \/ exists p', p = a ++ b :: c :: nl :: p' /\ r = p' ++ nl :: q).
  { induction a as [|x a IH]; intros p q b c r E Hn Hb Hc.
    - destruct p as [|y p]; [injection E as E _; contradiction|]. injection E as <- E. destruct p as [|y p]; [injection E as E _; contradiction|]. injection E as <- E. destruct p as [|y p]; [injection E as <-; left; auto|]. injection E as <- E. right. exists p. auto.
    - destruct p as [|y p]; [injection E as E _; exfalso; apply Hn; left; exact E|]. injection E as <- E. destruct (IH _ _ _ _ _ E) as [[-> ->]|(p' & -> & ->)]; auto. { intros X. apply Hn. right. exact X. } right. exists p'. auto. }
  assert (N : forall (a : str) b c, c <> "t"%char -> c <> ":"%char -> c <> dquote -> ~ In c [" "; "009"; "010"; "011"; "012"; "013"]%char -> ~ before_blanks (a ++ [b; c])).
  { intros a b c H1 H2 H3 H4 H. change (a ++ [b; c]) with (a ++ [b] ++ [c]) in H. rewrite app_assoc in H. destruct H as [H|[[z H]|[[z H]|[[z H]|(x & Hx & z & H)]]]]; [destruct a; discriminate H| | | |].
    - change (L "at") with (["a"%char] ++ ["t"%char]) in H. rewrite app_assoc in H. apply app_inj_tail in H as [_ H]. exact (H1 H).
    - apply app_inj_tail in H as [_ H]. exact (H2 H).
    - apply app_inj_tail in H as [_ H]. exact (H3 H).
    - apply app_inj_tail in H as [_ H]. subst x. exact (H4 Hx). }
  intros p rest E. change (L "a.B: c" ++ [nl; tab] ++ L "at d.e(F.java:1)" ++ [nl] ++ L "Caused by: : g") with (L "a.B:" ++ sp :: "c"%char :: nl :: ((tab :: L "at d.e(F.java:") ++ "1"%char :: ")"%char :: nl :: L "Caused by: : g")) in E.
  apply G in E; [|cbn; intuition discriminate|discriminate|discriminate]. destruct E as [[-> ->]|(p' & -> & E)].
  - apply N; try discriminate; cbn; intuition discriminate.
  - apply G in E; [|cbn; intuition discriminate|discriminate|discriminate]. destruct E as [[-> ->]|(p2 & -> & E)].
    + apply (N (L "a.B: c" ++ [nl; tab] ++ L "at d.e(F.java:")); try discriminate; cbn; intuition discriminate.
    + exfalso. assert (Hi : In nl (L "Caused by: : g")) by (rewrite E; apply in_or_app; right; left; reflexivity). cbn in Hi. intuition discriminate.
Qed.
Example C85_java_blank_link : exists k, link_ok java_shows k /\ jk_elision k = [] /\ jk_frames k <> [].
Proof.
  set (f := mk_java_frame (Some (L "d.e")) (Some (L "F.java")) 1 None false false None).
  assert (S1 : java_showable f).
  { unfold java_showable, f. cbn. repeat split; try lia; intros; try discriminate; try (injection H as <-); try discriminate; try (repeat constructor; cbn; intuition discriminate); try (cbn; intuition discriminate); try (intros [z Ez]; discriminate Ez). }
  exists (mk_java_link (L "a.B") (Some (L "c")) [f] [java_show print_N f] []). split; [|split; [reflexivity|discriminate]].
  split; [discriminate|]. split; [repeat constructor; cbn; intuition discriminate|]. split; [cbn; intuition discriminate|]. split; [intros m E; injection E as <-; repeat split; try discriminate; cbn; intuition discriminate|].
  split; [constructor; [apply js_java; [exact S1|reflexivity]|constructor]|constructor].
Qed.
Print Assumptions C85_java_either.
Print Assumptions C85_java_error.
Print Assumptions C85_java_one_reason.
Print Assumptions C85_java_counted.
Print Assumptions C85_java_place.
Print Assumptions C85_java_frame.
Print Assumptions C85_java_same.
Print Assumptions C85_java_blank_line_refuted.
Print Assumptions C85_java_line_refuted.
Print Assumptions C85_java_quote_refuted.
