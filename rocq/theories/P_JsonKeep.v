(** * C89: what a stack trace is known by survives being sent as JSON. *)
From Coq Require Import QArith.
From Verif Require Import Base JsonSpec Types JsonTypesModel JsonTypesSpec CrashModel CrashSpec NormModel TextModel ReportModel ReportSpec JsonRoundtrip JsonRoundtrip2 JsonRoundtrip3
  JsonKeepSpec JsonKeepProofs JsonKeepProofs2 JsonKeepProofs3 CmpModel DistModel.
Open Scope Z_scope.

(** Whatever can be sent is received, as one stack trace of the same type, with as many threads. *)
Theorem C89_received : forall s, sendable s -> exists s', received s s' /\ (forall s'', received s s'' -> s'' = s') /\
  stacktrace_type s' = stacktrace_type s /\ length (sr_stacktrace_threads s') = length (sr_stacktrace_threads s).
Proof.
  intros s H. exists (as_read s). split; [now apply received_iff|]. split; [intros s''; now apply received_iff|].
  split; [now destruct s|].
  rewrite threads_read. apply map_length.
Qed.
(** The duplicate hash of each thread is the sender's, for every prefix, number of frames and flags, if
    the number shown on each line fits. *)
Theorem C89_duphash : forall s s' i t t', sendable s -> received s s' ->
  nth_error (sr_stacktrace_threads s) i = Some t -> nth_error (sr_stacktrace_threads s') i = Some t' ->
  Forall dup_fits (sr_thread_frames t) ->
  forall sha1 nframes prefix flags,
    sr_thread_get_duphash sha1 t' nframes prefix flags = sr_thread_get_duphash sha1 t nframes prefix flags.
Proof.
  intros s s' i t t' H R T T' F sha1 n p fl. apply received_iff in R; [|exact H]. subst s'. rewrite threads_read, nth_error_map, T in T'.
  injection T' as <-. now apply duphash_read.
Qed.
(** Nothing less will do: the text of a thread of one frame comes out the same only if it fits. *)
Theorem C89_duphash_exact : forall s s' i t t' f, sendable s -> received s s' ->
  nth_error (sr_stacktrace_threads s) i = Some t -> nth_error (sr_stacktrace_threads s') i = Some t' ->
  sr_thread_frames t = [f] ->
  forall sha1 prefix,
    sr_thread_get_duphash sha1 t' 0 prefix 6 = sr_thread_get_duphash sha1 t 0 prefix 6 <-> dup_fits f.
Proof.
  intros s s' i t t' f H R T T' F sha1 p. apply received_iff in R; [|exact H]. subst s'. rewrite threads_read, nth_error_map, T in T'.
  injection T' as <-. apply (duphash_exact s); [exact (proj1 H)|exact (nth_error_In _ _ T)|exact F].
Qed.
(** The backtrace hash is the sender's if all numbers shown fit and no flag "special" lacks its name;
    neither the crash thread nor the reason is part of it. *)
Theorem C89_bthash : forall s s', sendable s -> received s s' ->
  Forall (fun t => Forall bt_fits (sr_thread_frames t)) (sr_stacktrace_threads s) ->
  forall sha1 flags, sr_stacktrace_get_bthash sha1 s' flags = sr_stacktrace_get_bthash sha1 s flags.
Proof. intros s s' H R F sha1 fl. apply received_iff in R; [|exact H]. subst s'. now apply bthash_read. Qed.
(** The reason is the sender's if the line named fits and, for a kernel oops, none was found in the text. *)
Theorem C89_reason : forall s s', sendable s -> received s s' -> reason_fits s ->
  sr_stacktrace_get_reason s' = sr_stacktrace_get_reason s.
Proof. intros s s' H R F. apply received_iff in R; [|exact H]. subst s'. now apply reason_read. Qed.
(** The crash thread of a core dump is found at the same place exactly if [crash_fits]. *)
Theorem C89_crash_thread : forall s s', sendable (SCore s) -> received (SCore s) s' ->
  (forall i, cs_crash_thread s = Some i -> (i < length (cs_threads s))%nat) ->
  exists c, s' = SCore c /\
    (sr_core_stacktrace_find_crash_thread c = sr_core_stacktrace_find_crash_thread s <-> crash_fits s).
Proof.
  intros s s' H R V. pose proof H as H0. apply received_iff in R; [|exact H]. subst s'. exists (core_as_read s). split; [reflexivity|].
  apply core_crash_iff; [|exact V]. destruct H0 as (_ & text & E & W). injection E as <-. apply core_valid_iff in W. tauto.
Qed.
(** The short text is the sender's if the crash thread comes back and what its lines show fits. *)
Theorem C89_short_text : forall s s', sendable s -> received s s' ->
  (forall c, s = SCore c -> crash_fits c /\ forall i, cs_crash_thread c = Some i -> (i < length (cs_threads c))%nat) ->
  (forall t, sr_stacktrace_find_crash_thread s = Some t -> Forall short_fits (sr_thread_frames t)) ->
  forall max_frames, sr_stacktrace_to_short_text s' max_frames = sr_stacktrace_to_short_text s max_frames.
Proof.
  intros s s' H R C F n. pose proof H as H0. apply received_iff in R; [|exact H]. subst s'. apply short_text_read; [| |exact F].
  - intros c E. destruct (C c E) as [K V]. apply core_crash_iff; [|exact V|exact K]. subst s. destruct H0 as (_ & text & E & W). injection E as <-.
    apply core_valid_iff in W. tauto.
  - intros g ->. exact (proj1 H0).
Qed.

(** Every distance between two threads received, of the same or different stack traces, is the one
    between the threads sent, before and after normalization.  For Java and kernel oopses this is
    unconditional. *)
Theorem C89_distance : forall s s' u u' i j t t' w w', sendable s -> received s s' -> sendable u -> received u u' ->
  nth_error (sr_stacktrace_threads s) i = Some t -> nth_error (sr_stacktrace_threads s') i = Some t' ->
  nth_error (sr_stacktrace_threads u) j = Some w -> nth_error (sr_stacktrace_threads u') j = Some w' ->
  Forall distance_fits (sr_thread_frames t) -> Forall distance_fits (sr_thread_frames w) ->
  forall dt,
    sr_distance frame_same dt (stacktrace_type s', sr_thread_frames t') (stacktrace_type u', sr_thread_frames w') =
    sr_distance frame_same dt (stacktrace_type s, sr_thread_frames t) (stacktrace_type u, sr_thread_frames w).
Proof.
  intros s s' u u' i j t t' w w' S1 R1 S2 R2 T T' W W' F G dt. apply received_iff in R1; [|exact S1]. apply received_iff in R2; [|exact S2]. subst s' u'.
  rewrite threads_read, nth_error_map, T in T'. injection T' as <-. rewrite threads_read, nth_error_map, W in W'. injection W' as <-.
  rewrite !frames_read, distance_read by assumption. now destruct s, u.
Qed.
Theorem C89_distance_normalized : forall s s' u u' i j t t' w w', sendable s -> received s s' -> sendable u -> received u u' ->
  nth_error (sr_stacktrace_threads s) i = Some t -> nth_error (sr_stacktrace_threads s') i = Some t' ->
  nth_error (sr_stacktrace_threads u) j = Some w -> nth_error (sr_stacktrace_threads u') j = Some w' ->
  Forall distance_fits (sr_thread_frames t) -> Forall distance_fits (sr_thread_frames w) ->
  forall n m, sr_thread_normalize t = Ok n -> sr_thread_normalize w = Ok m ->
  exists n' m', sr_thread_normalize t' = Ok n' /\ sr_thread_normalize w' = Ok m' /\ forall dt,
    sr_distance frame_same dt (stacktrace_type s', sr_thread_frames n') (stacktrace_type u', sr_thread_frames m') =
    sr_distance frame_same dt (stacktrace_type s, sr_thread_frames n) (stacktrace_type u, sr_thread_frames m).
Proof.
  intros s s' u u' i j t t' w w' S1 R1 S2 R2 T T' W W' F G n m N M. apply received_iff in R1; [|exact S1]. apply received_iff in R2; [|exact S2]. subst s' u'.
  rewrite threads_read, nth_error_map, T in T'. injection T' as <-. rewrite threads_read, nth_error_map, W in W'. injection W' as <-.
  exists (thread_read n), (thread_read m). rewrite !normalize_read, N, M. split; [reflexivity|]. split; [reflexivity|]. intros dt.
  pose proof (normalize_keeps_distance _ _ F N). pose proof (normalize_keeps_distance _ _ G M).
  rewrite !frames_read, distance_read by assumption. now destruct s, u.
Qed.

(** ** Cases that meet the hypotheses *)
Ltac safe1 := apply Forall_nil || apply Forall_cons || exact Logic.I || (left; vm_compute; discriminate) || (right; tauto) || split.
Ltac safe := repeat safe1.
Definition frame0 (addr : Z) (name : str) : core_frame := mk_core_frame addr None ulong_max (Some name) None None true.
(** a vsyscall address does not fit, and does not matter to the duplicate hash of a frame with a name *)
Definition two_threads : core_stacktrace :=
  mk_core_stacktrace 6 (Some (L "/bin/will_abort")) (Some 1%nat)
    [mk_core_thread [frame0 4096 (L "poll")]; mk_core_thread [frame0 18446744073699066880 (L "gettimeofday"); frame0 8192 (L "main")]] false.
Example C89_example : sendable (SCore two_threads) /\ crash_fits two_threads /\ reason_fits (SCore two_threads) /\
  Forall (fun t => Forall dup_fits (sr_thread_frames t) /\ Forall short_fits (sr_thread_frames t) /\ Forall distance_fits (sr_thread_frames t)) (sr_stacktrace_threads (SCore two_threads)) /\
  ~ Forall (fun t => Forall bt_fits (sr_thread_frames t)) (sr_stacktrace_threads (SCore two_threads)).
Proof.
  split; [|split; [|split; [exact Logic.I|split]]].
  - split.
    + split; [unfold u16, two16; cbn; lia|]. repeat constructor; cbn; unfold two64, ulong_max; lia.
    + eexists. split; [reflexivity|]. apply core_valid_iff. split; [safe|discriminate].
  - eexists. split; [reflexivity|]. left. discriminate.
  - repeat constructor; cbn; try discriminate; right; reflexivity.
  - intros H. apply Forall_inv_tail, Forall_inv, Forall_inv in H. destruct H as [[H|H] _]; vm_compute in H; discriminate H.
Qed.
Definition kframe (name : option str) (addr : Z) : koops_frame := mk_koops_frame addr true name 16 32 None 0 None 0 0 None None.
Definition oops (reason : option str) (l : list koops_frame) : koops_stacktrace :=
  mk_koops_stacktrace (Some (L "5.10")) (repeat false 16) None None l reason.
Lemma oops_sendable reason name addr : 0 <= addr < two64 -> opt_safe name -> sendable (SKoops (oops reason [kframe name addr])).
Proof.
  intros A N. split.
  - split; [|exact Logic.I]. split; [reflexivity|]. constructor; [|constructor]. repeat split; cbn; try apply A; lia.
  - eexists. split; [reflexivity|]. apply koops_valid_iff. split; [safe|]. split; [exact Logic.I|]. split; [exact Logic.I|].
    constructor; [|constructor]. repeat split. exact N.
Qed.

(** ** What is lost *)
(** A kernel address is above 2^63, so the duplicate hash of a frame without function name changes ... *)
Theorem C89_kernel_address_refuted : exists s t, sendable s /\ sr_stacktrace_threads s = [t] /\
  forall s' t', received s s' -> sr_stacktrace_threads s' = [t'] ->
    sr_thread_get_duphash (fun x => x) t' 0 None 0 <> sr_thread_get_duphash (fun x => x) t 0 None 0.
Proof.
  assert (H : sendable (SKoops (oops None [kframe None 18446744071578845184]))) by (apply oops_sendable; [unfold two64; lia|exact Logic.I]).
  eexists. eexists. split; [exact H|]. split; [reflexivity|]. intros s' t' R T. apply received_iff in R; [|exact H]. subst s'.
  injection T as <-. vm_compute. discriminate.
Qed.
(** ... and so does the backtrace hash of a frame with one. *)
Theorem C89_kernel_bthash_refuted : exists s, sendable s /\
  forall s', received s s' -> sr_stacktrace_get_bthash (fun x => x) s' 0 <> sr_stacktrace_get_bthash (fun x => x) s 0.
Proof.
  assert (H : sendable (SKoops (oops None [kframe (Some (L "do_exit")) 18446744071578845184]))) by (apply oops_sendable; [unfold two64; lia|safe]).
  eexists. split; [exact H|]. intros s' R. apply received_iff in R; [|exact H]. subst s'. vm_compute. discriminate.
Qed.
(** The reason found in a kernel oops is not sent. *)
Theorem C89_kernel_reason_refuted : exists s, sendable s /\
  forall s', received s s' -> sr_stacktrace_get_reason s = Ok (Some (L "divide error: 0000")) /\
    sr_stacktrace_get_reason s' = Ok (Some (L "Kernel oops in do_exit")).
Proof.
  assert (H : sendable (SKoops (oops (Some (L "divide error: 0000")) [kframe (Some (L "do_exit")) 4096]))) by (apply oops_sendable; [unfold two64; lia|safe]).
  eexists. split; [exact H|]. intros s' R. apply received_iff in R; [|exact H]. subst s'. vm_compute. split; reflexivity.
Qed.
(** A core dump whose crash thread is not marked is received with the first thread marked: the short
    text is that of another thread. *)
Definition unmarked : core_stacktrace :=
  mk_core_stacktrace 6 (Some (L "/bin/will_abort")) None
    [mk_core_thread [frame0 4096 (L "poll")];
     mk_core_thread [mk_core_frame 8192 None 1 (Some (L "raise")) (Some (L "/lib64/libpthread.so.0")) None true; frame0 8192 (L "main")]] false.
Theorem C89_unmarked_refuted : exists s, sendable s /\
  forall s', received s s' -> sr_stacktrace_to_short_text s' 1 <> sr_stacktrace_to_short_text s 1 /\
    exists i, sr_stacktrace_find_crash_thread s = nth_error (sr_stacktrace_threads s) i /\ i = 1%nat /\
      sr_stacktrace_find_crash_thread s' = nth_error (sr_stacktrace_threads s') 0.
Proof.
  assert (H : sendable (SCore unmarked)).
  { split.
    - split; [unfold u16, two16; cbn; lia|]. repeat constructor; cbn; unfold two64, ulong_max; lia.
    - eexists. split; [reflexivity|]. apply core_valid_iff. split; [safe|discriminate]. }
  eexists. split; [exact H|]. intros s' R. apply received_iff in R; [|exact H]. subst s'. split; [vm_compute; discriminate|].
  exists 1%nat. vm_compute. repeat split; reflexivity.
Qed.
(** A line number above 2^31 in two JavaScript frames: different frames become the same. *)
Definition js_one (line : Z) : js_stacktrace := mk_js_stacktrace (Some (L "Error")) [mk_js_frame (Some (L "a.js")) line 1 (Some (L "f"))] 0.
Theorem C89_large_line_refuted : exists s u t w, sendable s /\ sendable u /\ sr_stacktrace_threads s = [t] /\ sr_stacktrace_threads u = [w] /\
  forall s' u' t' w', received s s' -> received u u' -> sr_stacktrace_threads s' = [t'] -> sr_stacktrace_threads u' = [w'] ->
    exists d d', sr_distance frame_same JACCARD (7%nat, sr_thread_frames t) (7%nat, sr_thread_frames w) = Ok d /\ (d == 1)%Q /\
    sr_distance frame_same JACCARD (7%nat, sr_thread_frames t') (7%nat, sr_thread_frames w') = Ok d' /\ (d' == 0)%Q.
Proof.
  assert (H : forall line, 0 <= line < two32 -> sendable (SJs (js_one line))).
  { intros line B. split.
    - split; [cbn; unfold u32, two32; lia|]. constructor; [|constructor]. cbn. unfold u32, two32 in *. lia.
    - eexists. split; [reflexivity|]. apply js_valid_iff. split; [safe|].
      constructor; [|constructor]. split; [|safe]. intros (E & _). discriminate E. }
  pose proof (H 3000000000 ltac:(unfold two32; lia)) as H1. pose proof (H 3000000001 ltac:(unfold two32; lia)) as H2.
  exists (SJs (js_one 3000000000)), (SJs (js_one 3000000001)). eexists. eexists. split; [exact H1|]. split; [exact H2|]. split; [reflexivity|]. split; [reflexivity|].
  intros s' u' t' w' R1 R2 T W. apply received_iff in R1; [|exact H1]. apply received_iff in R2; [|exact H2]. subst s' u'. injection T as <-. injection W as <-.
  do 2 eexists. split; [vm_compute; reflexivity|]. split; [reflexivity|]. split; [vm_compute; reflexivity|]. reflexivity.
Qed.
Print Assumptions C89_received.
Print Assumptions C89_duphash.
Print Assumptions C89_duphash_exact.
Print Assumptions C89_bthash.
Print Assumptions C89_reason.
Print Assumptions C89_crash_thread.
Print Assumptions C89_short_text.
Print Assumptions C89_distance.
Print Assumptions C89_distance_normalized.
Print Assumptions C89_kernel_address_refuted.
Print Assumptions C89_kernel_bthash_refuted.
Print Assumptions C89_kernel_reason_refuted.
Print Assumptions C89_unmarked_refuted.
Print Assumptions C89_large_line_refuted.
