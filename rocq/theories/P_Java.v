(** * C43: the Java exception parser. *)
From Verif Require Import Base Types UtilsSpec UtilsModel RpmSpec JsonModel TextModel ParseSpec ParseModel JavaParseModel JavaParseSpec JavaParseProofs JavaParseProofs2 JavaParseProofs3.
Open Scope nat_scope.

(** The parser accepts exactly the texts that are an exception, perhaps with the name of a thread, with
    exactly that result.  In [java_exception] the frames of a cause come before those of the exception
    that wraps it. *)
Theorem C43_accepts_exactly s t rest : sr_java_thread_parse s = Ok (t, rest) <-> java_thread_text s t rest.
Proof. exact (java_thread_iff s t rest). Qed.
(** It never reads outside the text. *)
Theorem C43_safe s : sr_java_stacktrace_parse s <> UB.
Proof. unfold sr_java_stacktrace_parse. pose proof (java_thread_not_UB s). destruct (sr_java_thread_parse s) as [[t r]| |]; [discriminate|discriminate|contradiction]. Qed.
Theorem C43_frame_exact s f rest : sr_java_frame_parse s = Ok (f, rest) <-> java_frame_text s f rest.
Proof. exact (java_frame_iff s f rest). Qed.
Theorem C43_frame_safe s : sr_java_frame_parse s <> UB.
Proof. exact (java_frame_not_UB s). Qed.
(** A frame as satyr or Java writes it is read back, at the end of the text or before other lines. *)
Theorem C43_frame_roundtrip f t rest : java_shows f t -> sr_java_frame_parse (t ++ nl :: rest) = Ok (f, rest) /\ sr_java_frame_parse t = Ok (f, []).
Proof. exact (fun H => conj (java_frame_roundtrip f t rest H) (java_frame_roundtrip_end f t H)). Qed.
(** A chain of exceptions of any length, outermost first, is read back with the innermost first; each
    exception is followed by its frames. *)
Theorem C43_roundtrip name k ks : without [dquote; nl] name -> link_ok java_shows k -> Forall (link_ok java_shows) ks ->
  sr_java_stacktrace_parse (L "Exception in thread " ++ [dquote] ++ name ++ [dquote] ++ L " " ++ chain_text k ks) =
    Ok (mk_java_stacktrace [mk_java_thread (Some name) (concat (map link_frames (rev (k :: ks))))], []) /\
  sr_java_stacktrace_parse (chain_text k ks) = Ok (mk_java_stacktrace [mk_java_thread None (concat (map link_frames (rev (k :: ks))))], []).
Proof. exact (java_roundtrip name k ks). Qed.
(** What satyr writes for a thread with one exception is read back. *)
Theorem C43_written_roundtrip tname name message fs : without [dquote; nl] tname ->
  name <> [] -> without (L ": " ++ [tab; nl]) name -> not_blank_first name -> (forall m, message = Some m -> m <> [] /\ ~ In nl m /\ not_blank_first m) -> Forall java_showable fs ->
  let t := mk_java_thread (Some tname) (java_exception_frame name message :: fs) in sr_java_thread_parse (sr_java_thread_append_to_str t) = Ok (t, []).
Proof. exact (java_written_roundtrip tname name message fs). Qed.

Ltac chars := repeat (apply Forall_cons; [cbn; intuition discriminate|]); apply Forall_nil.
Ltac notblank := cbn; intros H; repeat (destruct H as [H|H]; [discriminate H|]); contradiction H.
Definition java_a := mk_java_frame (Some (L "Foo.bar")) (Some (L "Foo.java")) 36 (Some (L "/opt/java/Foo.class")) false false None.
Definition java_b := mk_java_frame (Some (L "Foo.<init>")) None 0 None true false None.
Definition java_c := mk_java_frame (Some (L "Foo.main")) None 0 (Some (L "http://localhost/Foo.class")) false false None.
Example showable_a : java_showable java_a.
Proof.
  split; [reflexivity|]. split; [reflexivity|]. split; [cbn; lia|]. split; [intros n E; injection E as <-; split; [discriminate|]; split; [notblank|]; split; cbn; intuition discriminate|].
  split; [discriminate|]. split; [intros n E; injection E as <-; split; [discriminate|]; split; [chars|]; repeat split; intros [z Ez]; discriminate Ez|].
  intros p E. injection E as <-. split; [chars|]. split; [intros [z Ez]; discriminate Ez|]. left. exists [], (L "opt/java/Foo.class"). repeat split; intros [].
Qed.
Example showable_b : java_showable java_b.
Proof.
  split; [reflexivity|]. split; [reflexivity|]. split; [cbn; lia|]. split; [intros n E; injection E as <-; split; [discriminate|]; split; [notblank|]; split; cbn; intuition discriminate|].
  split; [reflexivity|]. split; discriminate.
Qed.
Example showable_c : java_showable java_c.
Proof.
  split; [reflexivity|]. split; [reflexivity|]. split; [cbn; lia|]. split; [intros n E; injection E as <-; split; [discriminate|]; split; [notblank|]; split; cbn; intuition discriminate|].
  split; [discriminate|]. split; [discriminate|].
  intros p E. injection E as <-. split; [chars|]. split; [intros [z Ez]; discriminate Ez|]. right. exists (L "http"), (L "//localhost/Foo.class"). repeat split; try discriminate; cbn; intuition discriminate.
Qed.
Definition link_1 := mk_java_link (L "java.lang.RuntimeException") (Some (L "foo: bar")) [java_a; java_b] [sr_java_frame_append_to_str java_a; java_show print_N java_b] [].
Definition link_2 := mk_java_link (L "java.lang.NullPointerException") None [java_c] [sr_java_frame_append_to_str java_c]
  ([tab] ++ L "... " ++ L "2 more" ++ [nl] ++ [tab] ++ L "Suppressed: " ++ L "java.io.IOException" ++ [nl] ++ concat (map (fun l => l ++ [nl]) [[tab; tab] ++ L "at Foo.close(Foo.java:1)"])).
Definition link_3 := mk_java_link (L "Inner") None [] [] ([tab] ++ L "... " ++ L "3 more" ++ [nl]).
Example link_1_ok : link_ok java_shows link_1.
Proof.
  split; [discriminate|]. split; [chars|]. split; [notblank|]. split; [intros m E; injection E as <-; split; [discriminate|]; split; [cbn; intuition discriminate|notblank]|].
  split; [|exact el_none]. constructor; [exact (js_satyr _ showable_a)|]. constructor; [exact (js_java _ showable_b eq_refl)|constructor].
Qed.
Example link_2_ok : link_ok java_shows link_2.
Proof.
  split; [discriminate|]. split; [chars|]. split; [notblank|]. split; [discriminate|].
  split; [constructor; [exact (js_satyr _ showable_c)|constructor]|]. apply el_suppressed; [cbn; intuition discriminate|cbn; intuition discriminate|]. constructor; [|constructor]. split; [cbn; intuition discriminate|]. eexists. eexists. split; [reflexivity|]. cbn; auto.
Qed.
Example link_3_ok : link_ok java_shows link_3.
Proof. split; [discriminate|]. split; [chars|]. split; [notblank|]. split; [discriminate|]. split; [constructor|]. apply el_more. cbn; intuition discriminate. Qed.
Example whole : sr_java_stacktrace_parse (L "Exception in thread " ++ [dquote] ++ L "main" ++ [dquote] ++ L " " ++
    L "java.lang.RuntimeException: foo: bar" ++ [nl] ++ [tab] ++ L "at Foo.bar(Foo.java:36) [file:/opt/java/Foo.class]" ++ [nl] ++ [tab] ++ L "at Foo.<init>(Native Method)" ++ [nl] ++
    L "Caused by: java.lang.NullPointerException" ++ [nl] ++ [tab] ++ L "at Foo.main(Unknown Source) [http://localhost/Foo.class]" ++ [nl] ++ [tab] ++ L "... 2 more" ++ [nl] ++
    [tab] ++ L "Suppressed: java.io.IOException" ++ [nl] ++ [tab; tab] ++ L "at Foo.close(Foo.java:1)" ++ [nl] ++
    L "Caused by: Inner" ++ [nl] ++ [tab] ++ L "... 3 more" ++ [nl]) =
  Ok (mk_java_stacktrace [mk_java_thread (Some (L "main"))
    [java_exception_frame (L "Inner") None; java_exception_frame (L "java.lang.NullPointerException") None; java_c;
     java_exception_frame (L "java.lang.RuntimeException") (Some (L "foo: bar")); java_a; java_b]], []).
Proof. exact (proj1 (C43_roundtrip (L "main") link_1 [link_2; link_3] ltac:(chars) link_1_ok (Forall_cons _ link_2_ok (Forall_cons _ link_3_ok (Forall_nil _))))). Qed.
Example written : let t := mk_java_thread (Some (L "main")) [java_exception_frame (L "E") (Some (L "x")); java_a; java_b; java_c] in sr_java_thread_parse (sr_java_thread_append_to_str t) = Ok (t, []).
Proof.
  apply C43_written_roundtrip; [chars|discriminate|chars|notblank|intros m E; injection E as <-; split; [discriminate|]; split; [cbn; intuition discriminate|notblank]|].
  exact (Forall_cons _ showable_a (Forall_cons _ showable_b (Forall_cons _ showable_c (Forall_nil _)))).
Qed.
Example rejected : sr_java_thread_parse (L "Exception in thread ""main") = Fail /\ sr_java_thread_parse [] = Fail /\ sr_java_thread_parse (L "E" ++ [nl; nl]) = Fail.
Proof. repeat split. Qed.

(** What satyr itself writes for an exception with a cause is not read back: the line "..." is written
    without the space that the parser looks for. *)
Theorem C43_written_cause_refuted : exists t, sr_java_thread_parse (sr_java_thread_append_to_str t) = Fail /\
  t = mk_java_thread (Some (L "main")) [java_exception_frame (L "Inner") None; java_a; java_exception_frame (L "Outer") None; java_a].
Proof. eexists. split; [|reflexivity]. reflexivity. Qed.
(** A suppressed exception of the outermost exception hides the cause. *)
Theorem C43_suppressed_refuted : exists s, sr_java_thread_parse (L "A" ++ [nl] ++ [tab] ++ L "at f(F.java:1)" ++ [nl] ++
    [tab] ++ L "Suppressed: B" ++ [nl] ++ [tab; tab] ++ L "at g(G.java:2)" ++ [nl] ++ L "Caused by: C" ++ [nl] ++ [tab] ++ L "at h(H.java:3)" ++ [nl]) =
  Ok (mk_java_thread None [java_exception_frame (L "A") None; mk_java_frame (Some (L "f")) (Some (L "F.java")) 1 None false false None], s) /\ s <> [].
Proof. eexists. split; [reflexivity|discriminate]. Qed.
(** An exception with an empty message takes its first frame for the message. *)
Theorem C43_empty_message_refuted : sr_java_thread_parse (L "A: " ++ [nl] ++ [tab] ++ L "at f(F.java:1)" ++ [nl]) =
  Ok (mk_java_thread None [java_exception_frame (L "A") (Some (L "at f(F.java:1)"))], []).
Proof. reflexivity. Qed.

Print Assumptions C43_accepts_exactly.
Print Assumptions C43_safe.
Print Assumptions C43_frame_exact.
Print Assumptions C43_frame_safe.
Print Assumptions C43_frame_roundtrip.
Print Assumptions C43_roundtrip.
Print Assumptions C43_written_roundtrip.
Print Assumptions C43_written_cause_refuted.
Print Assumptions C43_suppressed_refuted.
Print Assumptions C43_empty_message_refuted.
