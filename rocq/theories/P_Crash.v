(** * Properties C28 and C29: crash threads and quality ratings. *)
From Verif Require Import Base Types CmpSpec CmpProofs NormModel NormSpec NormProofs NormProofs2 CrashModel CrashSpec CrashProofs CrashProofs2 DistFloat CrashFloat.
From Coq Require Import QArith Reals.
Close Scope R_scope.
Close Scope Q_scope.
Open Scope nat_scope.

(** C28.  The crash thread of a gdb stacktrace is the one the priorities name; the priorities leave no
    choice.  (The comparison that breaks ties needs line numbers below 2^31, see C30.) *)
Theorem C28_gdb : forall s, small_frames s -> gdb_crash_thread s (sr_gdb_stacktrace_find_crash_thread s).
Proof. exact gdb_find_ok. Qed.
Theorem C28_gdb_unique : forall s a b, small_frames s -> gdb_crash_thread s a -> gdb_crash_thread s b -> a = b.
Proof. exact gdb_crash_unique. Qed.
(** With any numbers: it is one of the threads, for a reason. *)
Theorem C28_gdb_member : forall s i, sr_gdb_stacktrace_find_crash_thread s = Some i ->
  exists t, nth_error (gs_threads s) i = Some t /\
    (gs_threads s = [t] \/ gt_tid t = gs_crash_tid s /\ gs_crash_tid s <> unknown_tid \/ shows_crash s t).
Proof. exact gdb_find_member. Qed.
(** Without a recorded tid the order of the threads does not matter: the threads chosen have the same frames. *)
Theorem C28_gdb_order_free : forall s s', Permutation (gs_threads s) (gs_threads s') -> gs_crash s' = gs_crash s ->
  gs_crash_tid s = unknown_tid -> gs_crash_tid s' = unknown_tid -> small_frames s ->
  match sr_gdb_stacktrace_find_crash_thread s, sr_gdb_stacktrace_find_crash_thread s' with
  | Some i, Some j => exists t u, nth_error (gs_threads s) i = Some t /\ nth_error (gs_threads s') j = Some u /\ by_frames t u = 0%Z
  | None, None => True
  | _, _ => False
  end.
Proof. exact order_free. Qed.
(** Normalizing the stacktrace remembers the crash thread when its tid is known and not shared. *)
Theorem C28_gdb_remembered : forall s i t, sr_gdb_stacktrace_find_crash_thread s = Some i -> nth_error (gs_threads s) i = Some t ->
  gt_tid t <> unknown_tid -> (forall j u, nth_error (gs_threads s) j = Some u -> gt_tid u = gt_tid t -> j = i) ->
  gs_crash_tid s = unknown_tid \/ gs_crash_tid s = gt_tid t ->
  sr_gdb_stacktrace_find_crash_thread (sr_normalize_gdb_stacktrace s) = Some i /\
  gs_crash_tid (sr_normalize_gdb_stacktrace s) = gt_tid t.
Proof. exact find_remembered. Qed.
(** The crash frame is the first frame left of that thread. *)
Theorem C28_gdb_crash_frame : forall s f, sr_gdb_stacktrace_get_crash_frame s = Some f ->
  exists i t g, sr_gdb_stacktrace_find_crash_thread s = Some i /\ nth_error (gs_threads s) i = Some t /\
    In g (gt_frames t) /\ gdb_canonical g f /\ ~ gdb_boring f.
Proof. exact crash_frame_ok. Qed.
Theorem C28_core : forall s, core_crash s (sr_core_stacktrace_find_crash_thread s).
Proof. exact core_find_ok. Qed.
Theorem C28_core_unique : forall s a b, core_crash s a -> core_crash s b -> a = b.
Proof. exact core_crash_unique. Qed.
Theorem C28_core_member : forall s i, (forall k, cs_crash_thread s = Some k -> k < length (cs_threads s)) ->
  sr_core_stacktrace_find_crash_thread s = Some i -> i < length (cs_threads s).
Proof. exact core_find_member. Qed.
(** Java: the first thread, whatever the others are. *)
Theorem C28_java : forall s,
  sr_java_find_crash_thread s = match vs_threads s with [] => None | _ :: _ => Some 0 end.
Proof. intros s. unfold sr_java_find_crash_thread. destruct (vs_threads s); reflexivity. Qed.
(** Limiting the depth keeps the first frames of each thread and everything else; the crash thread
    recorded by tid stays the same. *)
Theorem C28_limit_depth : forall s depth s', s' = sr_gdb_stacktrace_limit_frame_depth s depth ->
  gs_crash s' = gs_crash s /\ gs_libs s' = gs_libs s /\ gs_crash_tid s' = gs_crash_tid s /\
  length (gs_threads s') = length (gs_threads s) /\
  forall i t, nth_error (gs_threads s) i = Some t -> exists t', nth_error (gs_threads s') i = Some t' /\
    gt_number t' = gt_number t /\ gt_tid t' = gt_tid t /\ length (gt_frames t') <= depth /\
    (exists dropped, gt_frames t = gt_frames t' ++ dropped /\ (dropped = [] \/ length (gt_frames t') = depth)).
Proof. exact limit_depth_ok. Qed.
Theorem C28_limit_depth_tid : forall s depth t, In t (gs_threads s) -> gt_tid t = gs_crash_tid s -> gs_crash_tid s <> unknown_tid ->
  sr_gdb_stacktrace_find_crash_thread (sr_gdb_stacktrace_limit_frame_depth s depth) = sr_gdb_stacktrace_find_crash_thread s.
Proof. exact limit_depth_tid. Qed.

(** Cases: four threads, two show the crash frame, one of these aborts. *)
Definition thr (tid : Z) (fs : list gdb_frame) : gdb_thread := mk_gdb_thread 1 tid fs.
Definition c28_threads (tid : Z) : list gdb_thread :=
  [thr tid [fr "poll" "poll.c" 1]; thr tid [fr "raise" "raise.c" 2; fr "work" "w.c" 9];
   thr tid [fr "raise" "mine.c" 2]; thr tid [fr "abort" "abort.c" 3]].
Definition c28 (tid : Z) : gdb_stacktrace := mk_gdb_stacktrace (c28_threads tid) (Some (fr "raise" "" 2)) [] unknown_tid.
Example C28_case : small_frames (c28 unknown_tid) /\ sr_gdb_stacktrace_find_crash_thread (c28 unknown_tid) = Some 1.
Proof.
  split; [|vm_compute; reflexivity]. unfold small_frames. repeat (constructor; cbn); unfold gdb_small, small, small_or_unknown; cbn; lia.
Qed.
(** A guess: the least of the candidates in frame order, not the first listed. *)
Example C28_case_guess :
  let s := mk_gdb_stacktrace [thr 7 [fr "f" "z.c" 1]; thr 8 [fr "f" "a.c" 2]; thr 9 [fr "f" "a.c" 3]] (Some (fr "f" "" 1)) [] unknown_tid in
  small_frames s /\ sr_gdb_stacktrace_find_crash_thread s = Some 1.
Proof.
  split; [|vm_compute; reflexivity]. unfold small_frames. repeat (constructor; cbn); unfold gdb_small, small, small_or_unknown; cbn; lia.
Qed.
Example C28_case_tid :
  let s := mk_gdb_stacktrace [thr 7 [fr "f" "z.c" 1]; thr 8 [fr "g" "a.c" 2]] (Some (fr "f" "" 1)) [] 8 in
  sr_gdb_stacktrace_find_crash_thread s = Some 1.
Proof. vm_compute. reflexivity. Qed.
Example C28_case_remembered :
  let s := mk_gdb_stacktrace [thr 7 [fr "poll" "p.c" 1]; thr 8 [fr "raise" "raise.c" 2; fr "f" "f.c" 3]] (Some (fr "raise" "" 1)) [] unknown_tid in
  sr_gdb_stacktrace_find_crash_thread s = Some 1 /\
  (forall j u, nth_error (gs_threads s) j = Some u -> gt_tid u = 8%Z -> j = 1) /\
  sr_gdb_stacktrace_get_crash_frame s = Some (fr "f" "f.c" 3).
Proof.
  split; [vm_compute; reflexivity|]. split; [|vm_compute; reflexivity].
  intros [|[|[|j]]] u; cbn; try discriminate; intros H; injection H as <-; cbn; intros; try lia; discriminate.
Qed.
(** When the threads carry no tid, normalizing the stacktrace can lose the crash thread. *)
Theorem C28_remembered_refuted : exists s, sr_gdb_stacktrace_find_crash_thread s = Some 1 /\
  sr_gdb_stacktrace_find_crash_thread (sr_normalize_gdb_stacktrace s) = None.
Proof. exists (mk_gdb_stacktrace (firstn 2 (c28_threads unknown_tid)) (Some (fr "raise" "" 2)) [] unknown_tid). split; vm_compute; reflexivity. Qed.
Definition cfr (n : string) : core_frame := mk_core_frame 1 None 1 (Some (L n)) (Some (L "/lib64/libc.so.6")) None false.
Example C28_case_core :
  let s := mk_core_stacktrace 6 None None [mk_core_thread [cfr "poll"]; mk_core_thread [cfr "raise"; cfr "abort"; cfr "main"]] false in
  sr_core_stacktrace_find_crash_thread s = Some 1.
Proof. vm_compute. reflexivity. Qed.

Example C28_case_limit :
  let s := mk_gdb_stacktrace [thr 7 [fr "f" "z.c" 1]; thr 8 [fr "g" "a.c" 2; fr "h" "b.c" 4]] (Some (fr "f" "" 1)) [] 8 in
  map (fun t => length (gt_frames t)) (gs_threads (sr_gdb_stacktrace_limit_frame_depth s 1)) = [1; 1] /\
  sr_gdb_stacktrace_find_crash_thread (sr_gdb_stacktrace_limit_frame_depth s 1) = Some 1.
Proof. split; vm_compute; reflexivity. Qed.
(** C29.  Qualities are the part of the frames that is fully known (exact arithmetic). *)
Theorem C29_gdb_thread : forall t, proportion gdb_known (gt_frames t) 1 (sr_gdb_thread_quality t).
Proof. exact gdb_thread_quality_ok. Qed.
Theorem C29_java_thread : forall t, proportion java_known (vt_frames t) 1 (sr_java_thread_quality t).
Proof. exact java_thread_quality_ok. Qed.
Theorem C29_simple : forall s, proportion gdb_known (concat (map gt_frames (gs_threads s))) 0 (sr_gdb_stacktrace_quality_simple s).
Proof. exact simple_quality_ok. Qed.
Theorem C29_complex : forall s i t, sr_gdb_stacktrace_find_crash_thread s = Some i -> nth_error (gs_threads s) i = Some t ->
  exists q1 q2 q3,
    proportion gdb_known (concat (map (fun t => sr_normalize_gdb_frames (gt_frames t)) (gs_threads s))) 0 q1 /\
    proportion gdb_known (sr_normalize_gdb_frames (gt_frames t)) 1 q2 /\
    proportion gdb_known (firstn 5 (sr_normalize_gdb_frames (gt_frames t))) 1 q3 /\
    (sr_gdb_stacktrace_quality_complex s == (25 # 100) * q1 + (35 # 100) * q2 + (40 # 100) * q3)%Q.
Proof. exact complex_some. Qed.
Theorem C29_complex_no_crash : forall s, sr_gdb_stacktrace_find_crash_thread s = None ->
  proportion gdb_known (concat (map (fun t => sr_normalize_gdb_frames (gt_frames t)) (gs_threads s))) 0 (sr_gdb_stacktrace_quality_complex s).
Proof. exact complex_none. Qed.
(** A proportion lies between 0 and 1, is 1 exactly when everything is known and 0 exactly when nothing is. *)
Theorem C29_proportion_range : forall A (P : A -> Prop) l d q, in_unit d -> proportion P l d q -> in_unit q.
Proof. exact @proportion_unit. Qed.
Theorem C29_proportion_one : forall A (P : A -> Prop) l d q, l <> [] -> proportion P l d q -> ((q == 1)%Q <-> Forall P l).
Proof. exact @proportion_one. Qed.
Theorem C29_proportion_zero : forall A (P : A -> Prop) l d q, l <> [] -> proportion P l d q -> ((q == 0)%Q <-> Forall (fun x => ~ P x) l).
Proof. exact @proportion_zero. Qed.
Theorem C29_complex_range : forall s, in_unit (sr_gdb_stacktrace_quality_complex s).
Proof. exact complex_unit. Qed.
Theorem C29_complex_one : forall s i t, sr_gdb_stacktrace_find_crash_thread s = Some i -> nth_error (gs_threads s) i = Some t ->
  sr_normalize_gdb_frames (gt_frames t) <> [] ->
  ((sr_gdb_stacktrace_quality_complex s == 1)%Q <->
   forall u, In u (gs_threads s) -> Forall gdb_known (sr_normalize_gdb_frames (gt_frames u))).
Proof. exact complex_one. Qed.
(** Rounding to single precision keeps both kinds within [0, 1]. *)
Theorem C29_rounded : (forall ok all, (0 <= ok <= all)%Z -> (1 <= all <= 2147483648)%Z -> (0 <= quality_float ok all <= 1)%R) /\
  (forall q1 q2 q3, (0 <= q1 <= 1)%R -> (0 <= q2 <= 1)%R -> (0 <= q3 <= 1)%R -> (0 <= complex_float q1 q2 q3 <= 1)%R).
Proof. split; [exact quality_float_range|exact complex_float_range]. Qed.
(** The constants of the rounded formula are 0.35 and 0.4 up to half a unit in the last place. *)
Theorem C29_rounded_constants : (Rabs (c35 - 35 / 100) <= / 2 * Flocq.Core.Raux.bpow Flocq.Core.Zaux.radix2 (-25) /\
  Rabs (c40 - 4 / 10) <= / 2 * Flocq.Core.Raux.bpow Flocq.Core.Zaux.radix2 (-25))%R.
Proof. split; [exact c35_near|exact c40_near]. Qed.
Example C29_case :
  let s := mk_gdb_stacktrace [thr 7 [fr "poll" "p.c" 1; fr "??" "" 4]; thr 8 [fr "raise" "raise.c" 2; fr "f" "f.c" 3; fr "??" "" 5]] (Some (fr "raise" "" 1)) [] unknown_tid in
  (sr_gdb_stacktrace_quality_simple s == 3 # 5)%Q /\ (sr_gdb_stacktrace_quality_complex s == 1 # 2)%Q.
Proof. split; vm_compute; reflexivity. Qed.
Example C29_case_java :
  (sr_java_thread_quality (mk_java_thread None
     [mk_java_frame None (Some (L "A.java")) 1 None false false None; mk_java_frame None None 1 None false false None;
      mk_java_frame None None 1 None true false None]) == 2 # 3)%Q.
Proof. vm_compute. reflexivity. Qed.
Print Assumptions C28_gdb.
Print Assumptions C28_gdb_unique.
Print Assumptions C28_gdb_member.
Print Assumptions C28_gdb_order_free.
Print Assumptions C28_gdb_remembered.
Print Assumptions C28_gdb_crash_frame.
Print Assumptions C28_core.
Print Assumptions C28_core_unique.
Print Assumptions C28_core_member.
Print Assumptions C28_java.
Print Assumptions C28_limit_depth.
Print Assumptions C28_limit_depth_tid.
Print Assumptions C28_remembered_refuted.
Print Assumptions C29_gdb_thread.
Print Assumptions C29_java_thread.
Print Assumptions C29_simple.
Print Assumptions C29_complex.
Print Assumptions C29_complex_no_crash.
Print Assumptions C29_proportion_range.
Print Assumptions C29_proportion_one.
Print Assumptions C29_proportion_zero.
Print Assumptions C29_complex_range.
Print Assumptions C29_complex_one.
Print Assumptions C29_rounded.
Print Assumptions C29_rounded_constants.
