(** * C91: stack traces sent on from one to the next. *)
From Verif Require Import Base JsonSpec Types JsonTypesModel JsonTypesSpec JsonRoundtrip JsonRoundtrip2 JsonRoundtrip3 CrashModel TextModel SystemModel ReportModel JsonKeepSpec JsonKeepProofs ResendSpec ResendProofs ResendProofs2.
Open Scope Z_scope.

(** What was received can be sent, so there is no limit to the number of hops. *)
Theorem C91_any_hops s : sendable s -> forall n, exists s', hops n s s' /\ sendable s' /\ forall s'', hops n s s'' -> s'' = s'.
Proof.
  intros D n. exists (reads n s). split; [now apply hops_iff|]. split; [now apply sendable_reads|]. intros s''. now apply hops_iff.
Qed.
(** The second hop changes nothing exactly if [settles]. *)
Theorem C91_second_hop s s1 s2 : sendable s -> hops 1 s s1 -> hops 2 s s2 -> (s2 = s1 <-> settles s).
Proof. intros D A B. apply hops_iff in A; [|exact D]. apply hops_iff in B; [|exact D]. subst. cbn. now apply settles_iff. Qed.
(** Then no hop after the first changes anything. *)
Theorem C91_settled s n m a b : sendable s -> settles s -> hops (S n) s a -> hops (S m) s b -> a = b.
Proof. intros D H A B. apply hops_iff in A; [|exact D]. apply hops_iff in B; [|exact D]. subst. rewrite (settled n s D H), (settled m s D H). reflexivity. Qed.
(** In any case nothing changes after the second, except in JavaScript traces. *)
Theorem C91_settled_later s n m a b : sendable s -> (forall t, s <> SJs t) -> hops (S (S n)) s a -> hops (S (S m)) s b -> a = b.
Proof. intros D H A B. apply hops_iff in A; [|exact D]. apply hops_iff in B; [|exact D]. subst. rewrite (settled2 n s D H), (settled2 m s D H). reflexivity. Qed.
(** A JavaScript trace is the same again after two hops. *)
Theorem C91_js_two_hops t n a b : sendable (SJs t) -> hops (S n) (SJs t) a -> hops (S (S (S n))) (SJs t) b -> a = b.
Proof. intros D A B. apply hops_iff in A; [|exact D]. apply hops_iff in B; [|exact D]. subst. symmetry. apply period2; eauto. Qed.
(** All receivers know the trace by the same frames, hashes and reason, without any condition on numbers. *)
Theorem C91_frames s n m a b : sendable s -> hops (S n) s a -> hops (S m) s b ->
  map sr_thread_frames (sr_stacktrace_threads a) = map sr_thread_frames (sr_stacktrace_threads b).
Proof. intros D A B. apply hops_iff in A; [|exact D]. apply hops_iff in B; [|exact D]. subst. rewrite (frames_settled n s D), (frames_settled m s D). reflexivity. Qed.
Theorem C91_duphash s n m a b i t u : sendable s -> hops (S n) s a -> hops (S m) s b ->
  nth_error (sr_stacktrace_threads a) i = Some t -> nth_error (sr_stacktrace_threads b) i = Some u ->
  forall sha1 nframes prefix flags, sr_thread_get_duphash sha1 t nframes prefix flags = sr_thread_get_duphash sha1 u nframes prefix flags.
Proof.
  intros D A B T U sha1 k p fl. apply hops_iff in A; [|exact D]. apply hops_iff in B; [|exact D]. subst.
  assert (E : exists w, nth_error (sr_stacktrace_threads (as_read s)) i = Some w).
  { pose proof (f_equal (fun l => nth_error l i) (frames_settled n s D)) as E. cbn beta in E. rewrite !nth_error_map, T in E. destruct (nth_error (sr_stacktrace_threads (as_read s)) i); [eauto|discriminate E]. }
  destruct E as (w & W). rewrite (duphash_settled n s i t w) by assumption. now rewrite (duphash_settled m s i u w).
Qed.
Theorem C91_bthash s n m a b : sendable s -> hops (S n) s a -> hops (S m) s b ->
  forall sha1 flags, sr_stacktrace_get_bthash sha1 a flags = sr_stacktrace_get_bthash sha1 b flags.
Proof. intros D A B sha1 fl. apply hops_iff in A; [|exact D]. apply hops_iff in B; [|exact D]. subst. rewrite (bthash_settled n s sha1 fl D), (bthash_settled m s sha1 fl D). reflexivity. Qed.
Theorem C91_reason s n m a b : sendable s -> hops (S n) s a -> hops (S m) s b -> sr_stacktrace_get_reason a = sr_stacktrace_get_reason b.
Proof. intros D A B. apply hops_iff in A; [|exact D]. apply hops_iff in B; [|exact D]. subst. rewrite (reason_settled n s D), (reason_settled m s D). reflexivity. Qed.
(** Whatever JSON a reader accepts, from whomever: the result can be sent exactly if its strings are made of
    bytes that JSON can carry, no frame is empty, and a core dump has threads. *)
Theorem C91_accepted type v s : sr_stacktrace_from_json type v = Ok (Some s) -> (sendable s <-> clean s).
Proof. intros H. apply accepted_range in H. rewrite sendable_iff. tauto. Qed.

(** A trace that settles, with a number that is clipped at the first hop. *)
Definition resend_example : stacktrace := SRuby (mk_ruby_stacktrace (Some (L "E")) [mk_ruby_frame (Some (L "a.rb")) 4294967295 false (Some (L "f")) 0 1]).
Ltac clean_tac := repeat (first [apply Forall_nil | apply Forall_cons | exact Logic.I | (left; vm_compute; discriminate) | split]).
Example C91_example : sendable resend_example /\ settles resend_example /\ exists s1, hops 1 resend_example s1 /\ s1 <> resend_example /\ hops 7 resend_example s1.
Proof.
  assert (D : sendable resend_example).
  { apply sendable_iff. split; [repeat constructor; cbn; unfold two32; lia|]. split; [clean_tac|]. constructor; [|constructor]. split; [intros (H & _); discriminate H|clean_tac]. }
  split; [exact D|]. split; [exact Logic.I|]. exists (reads 1 resend_example). split; [now apply hops_iff|]. split.
  - intros E. apply (f_equal (fun s => match s with SRuby t => map rf_file_line (rs_frames t) | _ => [] end)) in E. discriminate E.
  - apply hops_iff; [exact D|reflexivity].
Qed.
Example C91_accepted_example : exists v s, sr_stacktrace_from_json REPORT_RUBY v = Ok (Some s) /\ clean s.
Proof.
  exists (JObj [(L "exception_name", JStr (L "E"))]). eexists. split; [vm_compute; reflexivity|]. split; [clean_tac|constructor].
Qed.
(** The crash thread of a core dump has no frames: the first receiver knows no crash thread, and what is sent on
    says that the first thread crashed. *)
Definition frame1 : core_frame := mk_core_frame 16 None ulong_max (Some (L "main")) None None true.
Definition no_frames_example : core_stacktrace := mk_core_stacktrace 11 None (Some 1%nat) [mk_core_thread [frame1]; mk_core_thread []] false.
Theorem C91_crash_thread_refuted : exists s a b, sendable (SCore s) /\ hops 1 (SCore s) (SCore a) /\ hops 2 (SCore s) (SCore b) /\
  cs_crash_thread s = Some 1%nat /\ cs_crash_thread a = None /\ cs_crash_thread b = Some 0%nat.
Proof.
  assert (D : sendable (SCore no_frames_example)).
  { apply sendable_iff. split; [split; [cbn; unfold u16, two16; lia|]; repeat constructor; cbn; unfold two64, ulong_max; lia|]. split; [clean_tac|discriminate]. }
  exists no_frames_example, (core_as_read no_frames_example), (core_as_read (core_as_read no_frames_example)).
  split; [exact D|]. split; [now apply hops_iff|]. split; [now apply hops_iff|]. vm_compute. auto.
Qed.
(** A JavaScript trace as it is read from text (engine V8) is sent on as one of Node.js, then of V8 again. *)
Definition js_hop_example : js_stacktrace := mk_js_stacktrace (Some (L "E")) [mk_js_frame (Some (L "a.js")) 1 2 (Some (L "f"))] 1.
Theorem C91_platform_refuted : exists t a b, sendable (SJs t) /\ hops 1 (SJs t) (SJs a) /\ hops 2 (SJs t) (SJs b) /\
  js_platform t = 1 /\ js_platform a = 16 /\ js_platform b = 1.
Proof.
  assert (D : sendable (SJs js_hop_example)).
  { apply sendable_iff. split; [split; [cbn; unfold u32, two32; lia|]; repeat constructor; cbn; unfold two32; lia|]. split; [clean_tac|]. constructor; [|constructor]. split; [intros (H & _); discriminate H|clean_tac]. }
  exists js_hop_example, (js_as_read js_hop_example), (js_as_read (js_as_read js_hop_example)).
  split; [exact D|]. split; [now apply hops_iff|]. split; [now apply hops_iff|]. vm_compute. auto.
Qed.
(** JSON from elsewhere may hold what is not received as it was accepted: a negative line comes out large and is clipped. *)
Theorem C91_negative_refuted : exists v s s', sr_stacktrace_from_json REPORT_RUBY v = Ok (Some s) /\ sendable s /\ received s s' /\ s' <> s.
Proof.
  exists (JObj [(L "stacktrace", JArr [JObj [(L "file_name", JStr (L "a")); (L "file_line", JInt (-1))]])]). eexists. exists (SRuby (mk_ruby_stacktrace None [mk_ruby_frame (Some (L "a")) 2147483647 false None 0 0])).
  split; [vm_compute; reflexivity|].
  match goal with |- sendable ?s /\ _ => assert (D : sendable s) end.
  { apply sendable_iff. split; [repeat constructor; cbn; unfold two32; lia|]. split; [exact Logic.I|]. constructor; [|constructor]. split; [intros (H & _); discriminate H|clean_tac]. }
  split; [exact D|]. split; [apply received_iff; [exact D|vm_compute; reflexivity]|]. intros E.
  apply (f_equal (fun s => match s with SRuby t => map rf_file_line (rs_frames t) | _ => [] end)) in E. discriminate E.
Qed.
Print Assumptions C91_any_hops.
Print Assumptions C91_second_hop.
Print Assumptions C91_settled.
Print Assumptions C91_settled_later.
Print Assumptions C91_js_two_hops.
Print Assumptions C91_frames.
Print Assumptions C91_duphash.
Print Assumptions C91_bthash.
Print Assumptions C91_reason.
Print Assumptions C91_accepted.
Print Assumptions C91_crash_thread_refuted.
Print Assumptions C91_platform_refuted.
Print Assumptions C91_negative_refuted.
