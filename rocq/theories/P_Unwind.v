(** * C65: stack traces of core dumps and dying processes. *)
From Verif Require Import Base Types UtilsModel CrashModel UnwindModel UnwindSpec UnwindProofs.
Open Scope nat_scope.

(** ** Frames *)
Theorem C65_frame_exact : forall addrmodule cxa_demangle ip minus_one f,
  resolve_frame addrmodule cxa_demangle ip minus_one = f <-> frame_for addrmodule cxa_demangle ip minus_one f.
Proof. intros. rewrite frame_iff. split; congruence. Qed.

(** ** Threads: the outermost 256 frames above the start of the program *)
Theorem C65_thread_exact : forall addrmodule cxa_demangle u t,
  unwind_thread addrmodule cxa_demangle u = Ok t <-> thread_of addrmodule cxa_demangle u t.
Proof. exact thread_iff. Qed.
Theorem C65_at_most_256 : forall addrmodule cxa_demangle u t,
  unwind_thread addrmodule cxa_demangle u = Ok t -> length (ct_frames t) <= 256.
Proof. intros a c u t H. apply thread_iff in H as (fs & _ & (d & _ & H)). lia. Qed.
(** Short threads are complete. *)
Theorem C65_short_thread : forall addrmodule cxa_demangle u t,
  length (u_frames u) <= 256 -> unwind_thread addrmodule cxa_demangle u = Ok t -> unwinds addrmodule cxa_demangle (u_ret u) (u_frames u) (ct_frames t).
Proof.
  intros a c u t Hl H. apply thread_iff in H as (fs & Hu & (d & E & H)). assert (Hf : length fs <= 256).
  { assert (G : length fs <= length (u_frames u)) by (clear - Hu; induction Hu; cbn; lia). lia. }
  rewrite E, app_length in H, Hf. destruct d as [|x d]; [cbn in E; congruence|]. cbn [length] in *. lia.
Qed.
Theorem C65_never_start : forall addrmodule cxa_demangle u t,
  unwind_thread addrmodule cxa_demangle u = Ok t -> Forall (fun f => cf_function_name f <> Some libc_start) (ct_frames t).
Proof. intros a c u t H. apply thread_iff in H. eapply never_below_start; exact H. Qed.

(** ** The signal *)
Theorem C65_signal : forall segments, signal_of (all_notes segments) (get_signal_number (Some segments)).
Proof. exact segments_signal. Qed.
(** There is one such signal. *)
Theorem C65_signal_unique : forall notes s s', signal_of notes s -> signal_of notes s' -> s = s'.
Proof. exact signal_unique. Qed.

(** ** Whole stack traces *)
Theorem C65_core_dump_exact : forall addrmodule cxa_demangle d executable s,
  sr_parse_coredump addrmodule cxa_demangle (Some d) executable = Ok s <->
  cd_attach d = true /\ cd_ret d = 0%Z /\
  Forall2 (thread_of addrmodule cxa_demangle) (cd_threads d) (cs_threads s) /\
  (exists signal, (match cd_segments d with None => signal = 0%Z | Some segments => signal_of (all_notes segments) signal end) /\
     cs_signal s = (signal mod 65536)%Z) /\
  cs_executable s = executable /\ cs_crash_thread s = match cs_threads s with [] => None | _ => Some 0 end /\ cs_only_crash_thread s = false.
Proof. exact coredump_iff. Qed.
Theorem C65_core_dump_safe : forall addrmodule cxa_demangle d executable, sr_parse_coredump addrmodule cxa_demangle d executable <> UB.
Proof. exact coredump_not_ub. Qed.
(** A dying process: one thread.  A trace made without an error has all of this. *)
Theorem C65_hook_exact : forall addrmodule cxa_demangle attach u executable signum s,
  sr_core_stacktrace_from_core_hook_generate addrmodule cxa_demangle attach u executable signum = (Ok s, false) <->
  attach = true /\ exists t, cs_threads s = [t] /\ thread_of addrmodule cxa_demangle u t /\
    (u_ret u <> -1 \/ exists k ip m f, nth_error (u_frames u) k = Some (Some (ip, m)) /\ frame_for addrmodule cxa_demangle ip m f /\ cf_function_name f = Some libc_start)%Z /\
    cs_signal s = (Z.max 0 signum mod 65536)%Z /\ cs_executable s = executable /\ cs_crash_thread s = Some 0 /\ cs_only_crash_thread s = true.
Proof. exact hook_iff. Qed.
(** When attaching to the process fails, a stack trace is returned nevertheless. *)
Theorem C65_hook_error_refuted : exists addrmodule cxa_demangle u s,
  sr_core_stacktrace_from_core_hook_generate addrmodule cxa_demangle false u (Some (L "/bin/x")) 11 = (Ok s, true).
Proof. exists (fun _ => None), (fun _ => None), (mk_unwound [] 0). eexists. reflexivity. Qed.

(** ** From gdb *)
(** Of each thread, as many of the innermost frames are dropped as there are ordinary frames over 256; the ordinary ones
    among the others are kept. *)
Theorem C65_gdb_frames : forall addrmodule cxa_demangle t, exists dropped kept,
  gt_frames t = dropped ++ kept /\
  length dropped = length (filter (fun f => negb (gf_signal_handler_called f)) (gt_frames t)) - 256 /\
  map cf_address (ct_frames (core_thread_from_gdb addrmodule cxa_demangle t)) = map gf_address (filter (fun f => negb (gf_signal_handler_called f)) kept) /\
  Forall2 (fun g f => frame_for addrmodule cxa_demangle (gf_address g) false f)
    (filter (fun f => negb (gf_signal_handler_called f)) kept) (ct_frames (core_thread_from_gdb addrmodule cxa_demangle t)).
Proof. exact from_gdb_frames. Qed.
(** So a thread without signal handlers keeps its last 256 frames … *)
Theorem C65_gdb_limit : forall addrmodule cxa_demangle t, Forall (fun f => gf_signal_handler_called f = false) (gt_frames t) ->
  exists kept, last_of 256 (gt_frames t) kept /\
  Forall2 (fun g f => frame_for addrmodule cxa_demangle (gf_address g) false f) kept (ct_frames (core_thread_from_gdb addrmodule cxa_demangle t)).
Proof. exact from_gdb_limit. Qed.
(** … but with a signal handler among the dropped frames there can be more than 256. *)
Definition C65_gdb_frame (handler : bool) : gdb_frame := mk_gdb_frame None None 0 None 0 handler 4096 None.
Theorem C65_gdb_limit_refuted : exists t, forall addrmodule cxa_demangle, 256 < length (ct_frames (core_thread_from_gdb addrmodule cxa_demangle t)).
Proof.
  exists (mk_gdb_thread 1 1 (C65_gdb_frame true :: repeat (C65_gdb_frame false) 257)). intros a c. unfold core_thread_from_gdb. cbn [ct_frames gt_frames].
  rewrite map_length. match goal with |- 256 < ?n => replace n with 257 by (vm_compute; reflexivity) end. lia.
Qed.
Theorem C65_gdb_trace : forall addrmodule cxa_demangle g segments executable s,
  sr_core_stacktrace_from_gdb addrmodule cxa_demangle g segments executable = s ->
  length (cs_threads s) = length (gs_threads g) /\ cs_executable s = executable /\
  cs_crash_thread s = sr_gdb_stacktrace_find_crash_thread g /\
  (forall l, segments = Some l -> exists signal, signal_of (all_notes l) signal /\ cs_signal s = (signal mod 65536)%Z).
Proof.
  intros a c g segs exe s <-. unfold sr_core_stacktrace_from_gdb. cbn. rewrite map_length. repeat split; auto. intros l ->.
  exists (segments_loop l). split; [apply segments_signal|reflexivity].
Qed.

(** ** libunwind *)
Theorem C65_libunwind_exact : forall addrmodule cxa_demangle init steps t,
  lu_unwind_thread addrmodule cxa_demangle init steps = Ok t <-> (0 <= init)%Z /\ lu_unwinds addrmodule cxa_demangle steps 999 0 (ct_frames t).
Proof.
  intros a c init steps t. unfold lu_unwind_thread. destruct (Z.ltb_spec init 0) as [H|H]; [split; [discriminate|lia]|]. split.
  - destruct (lu_loop a c 999 0 steps) as [fs| |] eqn:E; cbn [bind]; try discriminate. intros Ht. injection Ht as <-. split; [exact H|]. apply lu_iff. exact E.
  - intros [_ Ht]. apply lu_iff in Ht. rewrite Ht. destruct t. reflexivity.
Qed.
Theorem C65_libunwind_dump_exact : forall addrmodule cxa_demangle threads cursigs executable s,
  lu_parse_coredump addrmodule cxa_demangle (Some threads) cursigs executable = Ok s <->
  Forall2 (lu_thread_of addrmodule cxa_demangle) threads (cs_threads s) /\
  (exists signal, first_signal cursigs signal /\ cs_signal s = (signal mod 65536)%Z) /\
  cs_executable s = executable /\ cs_crash_thread s = match cs_threads s with [] => None | _ => Some 0 end /\ cs_only_crash_thread s = false.
Proof. exact lu_parse_iff. Qed.
Theorem C65_libunwind_limit : forall addrmodule cxa_demangle init steps t,
  lu_unwind_thread addrmodule cxa_demangle init steps = Ok t -> length (ct_frames t) <= 999.
Proof. intros a c init steps t H. apply C65_libunwind_exact in H as [_ H]. apply lu_count in H. exact H. Qed.
Theorem C65_libunwind_safe : forall addrmodule cxa_demangle threads cursigs executable,
  Forall (fun '(init, steps) => (0 <= init)%Z /\ forall i, lu_ip (steps i) <> None) threads ->
  exists s, lu_parse_coredump addrmodule cxa_demangle (Some threads) cursigs executable = Ok s /\ length (cs_threads s) = length threads.
Proof. exact lu_parse_safe. Qed.
(** A thread that cannot be set up: the stack trace is freed and used. *)
Theorem C65_libunwind_failing_thread_refuted : exists addrmodule cxa_demangle threads, lu_parse_coredump addrmodule cxa_demangle (Some threads) [] None = UB.
Proof. exists (fun _ => None), (fun _ => None), [((-1)%Z, fun _ => mk_lu_step (Some 0%Z) None 0)]. reflexivity. Qed.
(** A register that cannot be read: an uninitialized variable is used. *)
Theorem C65_libunwind_register_refuted : exists addrmodule cxa_demangle steps, lu_unwind_thread addrmodule cxa_demangle 0 steps = UB.
Proof. exists (fun _ => None), (fun _ => None), (fun _ => mk_lu_step None None 0). reflexivity. Qed.

(** ** Examples *)
Definition C65_module : module :=
  mk_module (L "AB") (Some (L "prog", 4194304%Z, Some (L "/usr/bin/prog")))
    (fun a => if (a <? 4198400)%Z then Some (L "_Z1fv") else if (a <? 4202496)%Z then Some (L "main") else Some (L "__libc_start_main")).
Definition C65_map (a : Z) : option module := if (a <? 4194304)%Z then None else Some C65_module.
Definition C65_demangle (s : str) : option str := if str_eqb s (L "_Z1fv") then Some (L "f()") else None.
Definition C65_unwound : unwound := mk_unwound [Some (4096, false); Some (4198399, true); Some (4198400, true); Some (4198401, true); Some (4202499, true); Some (7, false)]%Z 0.
Example C65_example : unwind_thread C65_map C65_demangle C65_unwound = Ok (mk_core_thread
  [mk_core_frame 4096 None 4096 None None None true;
   mk_core_frame 4198399 (Some (L "4142")) 4095 (Some (L "f()")) (Some (L "/usr/bin/prog")) None true;
   mk_core_frame 4198400 (Some (L "4142")) 4096 (Some (L "f()")) (Some (L "/usr/bin/prog")) None true;
   mk_core_frame 4198401 (Some (L "4142")) 4097 (Some (L "main")) (Some (L "/usr/bin/prog")) None true]).
Proof. vm_compute. reflexivity. Qed.
Definition C65_note (sig : ascii) : note := mk_note 1 5 (Some (L "CORE" ++ [nul])) (Some (repeat nul 12 ++ sig :: repeat nul 323)).
Example C65_example_signal : get_signal_number (Some [None; Some (1%Z, Some [C65_note "A"]); Some (4%Z, Some [mk_note 3 5 None None; C65_note nul]); Some (4%Z, Some [C65_note "B"; C65_note "C"])]) = 66%Z.
Proof. vm_compute. reflexivity. Qed.
Example C65_example_dump : exists t, sr_parse_coredump C65_map C65_demangle
  (Some (mk_core_dump true [C65_unwound; C65_unwound] 0 (Some [Some (4%Z, Some [C65_note "B"])]))) (Some (L "/usr/bin/prog")) =
  Ok (mk_core_stacktrace 66 (Some (L "/usr/bin/prog")) (Some 0) [t; t] false) /\ length (ct_frames t) = 4.
Proof. eexists. split; [vm_compute; reflexivity|reflexivity]. Qed.
Example C65_example_hook : exists t, sr_core_stacktrace_from_core_hook_generate C65_map C65_demangle true C65_unwound None 11 =
  (Ok (mk_core_stacktrace 11 None (Some 0) [t] true), false) /\ length (ct_frames t) = 4.
Proof. eexists. split; [vm_compute; reflexivity|reflexivity]. Qed.
Example C65_example_long : exists t, unwind_thread C65_map C65_demangle (mk_unwound (map (fun n => Some (Z.of_nat n, false)) (seq 0 300)) 0) = Ok t /\
  length (ct_frames t) = 256 /\ map cf_address (ct_frames t) = map Z.of_nat (seq 44 256).
Proof. eexists. split; [vm_compute; reflexivity|]. split; vm_compute; reflexivity. Qed.
Example C65_example_abort : unwind_thread C65_map C65_demangle (mk_unwound [Some (4096, false); None]%Z 0) = Fail.
Proof. vm_compute. reflexivity. Qed.
Example C65_example_gdb : map cf_address (ct_frames (core_thread_from_gdb C65_map C65_demangle
  (mk_gdb_thread 1 1 [C65_gdb_frame false; C65_gdb_frame true; C65_gdb_frame false]))) = [4096; 4096]%Z.
Proof. vm_compute. reflexivity. Qed.
(** libunwind keeps the frame of the start of the program, elfutils does not. *)
Example C65_example_libunwind : lu_unwind_thread C65_map C65_demangle 0
  (fun i => match i with 0 => mk_lu_step (Some 4096%Z) (Some (L "g")) 1 | 1 => mk_lu_step (Some 4198401%Z) None 1 | _ => mk_lu_step (Some 4202499%Z) None 1 end) =
  Ok (mk_core_thread
  [mk_core_frame 4096 None 4096 (Some (L "g")) None None true;
   mk_core_frame 4198401 (Some (L "4142")) 4097 (Some (L "main")) (Some (L "/usr/bin/prog")) None true;
   mk_core_frame 4202499 (Some (L "4142")) 8195 (Some (L "__libc_start_main")) (Some (L "/usr/bin/prog")) None true]).
Proof. vm_compute. reflexivity. Qed.
Print Assumptions C65_frame_exact.
Print Assumptions C65_thread_exact.
Print Assumptions C65_at_most_256.
Print Assumptions C65_short_thread.
Print Assumptions C65_never_start.
Print Assumptions C65_signal.
Print Assumptions C65_signal_unique.
Print Assumptions C65_core_dump_exact.
Print Assumptions C65_core_dump_safe.
Print Assumptions C65_hook_exact.
Print Assumptions C65_hook_error_refuted.
Print Assumptions C65_gdb_frames.
Print Assumptions C65_gdb_limit.
Print Assumptions C65_gdb_limit_refuted.
Print Assumptions C65_gdb_trace.
Print Assumptions C65_libunwind_exact.
Print Assumptions C65_libunwind_dump_exact.
Print Assumptions C65_libunwind_limit.
Print Assumptions C65_libunwind_safe.
Print Assumptions C65_libunwind_failing_thread_refuted.
Print Assumptions C65_libunwind_register_refuted.
