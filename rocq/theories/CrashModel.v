(** * Crash threads and quality ratings (lib/gdb_stacktrace.c, lib/core_stacktrace.c, lib/gdb_thread.c,
    lib/java_thread.c, lib/normalize.c).

    A thread is identified by its position in the list of threads; positions in a copied stacktrace
    are the positions in the original (copying itself is P_Heap.v). *)
From Verif Require Import Base Types CmpModel NormModel.
From Coq Require Import QArith.
Close Scope Q_scope.
Open Scope nat_scope.

Definition uint32_max : Z := 4294967295.

(* lib/gdb_stacktrace.c:169-189 thread_cmp_dont_compare_number *)
Definition thread_cmp_dont_compare_number (t u : gdb_thread) : Z :=
  frames_cmp (gdb_frame_cmp true) (gt_frames t) (gt_frames u).

(* lib/gdb_stacktrace.c:191 *)
Inductive requirement := ONE_MATCHING | ABORT_FUNCTION | FIRST_MATCHING.

(* lib/normalize.c:633-647 sr_glibc_thread_find_exit_frame; position of the frame, if any *)
Definition sr_glibc_thread_find_exit_frame (t : gdb_thread) : option nat :=
  find_exit_frame sr_gdb_is_exit_frame 0 (gt_frames t) None.

(* lib/gdb_stacktrace.c:222-225 *)
Definition same_name (crash_name : str) (t : gdb_thread) : bool :=
  match gt_frames t with
  | [] => false
  | top :: _ => match gf_function_name top with None => false | Some n => (strcmp n crash_name =? 0)%Z end
  end.
Definition abort_requirement_satisfied (req : requirement) (t : gdb_thread) : bool :=
  match req with
  | ABORT_FUNCTION => match sr_glibc_thread_find_exit_frame t with Some _ => true | None => false end
  | _ => true
  end.
(* lib/gdb_stacktrace.c:218-256: [i] is the position of the head of the remaining threads; the result
   so far is a position with its thread *)
Fixpoint match_loop (req : requirement) (name : str) (i : nat) (threads : list gdb_thread)
         (result : option (nat * gdb_thread)) : option nat :=
  match threads with
  | [] => option_map fst result
  | t :: r =>
    if same_name name t && abort_requirement_satisfied req t then
      match result with
      | None => match_loop req name (S i) r (Some (i, t))
      | Some (_, best) =>
        match req with
        | FIRST_MATCHING =>
          if (thread_cmp_dont_compare_number t best <? 0)%Z then match_loop req name (S i) r (Some (i, t))
          else match_loop req name (S i) r result
        | _ => None
        end
      end
    else match_loop req name (S i) r result
  end.
(* lib/gdb_stacktrace.c:205-257 find_crash_thread_from_crash_frame (debug output left out) *)
Definition find_crash_thread_from_crash_frame (s : gdb_stacktrace) (req : requirement) : option nat :=
  match gs_crash s with
  | None => None
  | Some c =>
    match gf_function_name c with
    | None => None
    | Some name => match_loop req name 0 (gs_threads s) None
    end
  end.
Fixpoint find_index {A} (p : A -> bool) (i : nat) (l : list A) : option nat :=
  match l with
  | [] => None
  | x :: r => if p x then Some i else find_index p (S i) r
  end.
Definition or_else {A} (a b : option A) : option A := match a with Some _ => a | None => b end.
(* lib/gdb_stacktrace.c:259-312 sr_gdb_stacktrace_find_crash_thread *)
Definition sr_gdb_stacktrace_find_crash_thread (s : gdb_stacktrace) : option nat :=
  match gs_threads s with
  | [] => None
  | [_] => Some 0
  | _ =>
    or_else (if (gs_crash_tid s =? uint32_max)%Z then None
             else find_index (fun t => (gt_tid t =? gs_crash_tid s)%Z) 0 (gs_threads s))
    (or_else (find_crash_thread_from_crash_frame s ONE_MATCHING)
    (or_else (find_crash_thread_from_crash_frame s ABORT_FUNCTION)
             (find_crash_thread_from_crash_frame s FIRST_MATCHING)))
  end.
(* lib/core_thread.c:167-181 sr_core_thread_find_exit_frame *)
Definition sr_core_thread_find_exit_frame (t : core_thread) : option nat :=
  find_exit_frame sr_core_thread_is_exit_frame 0 (ct_frames t) None.
(* lib/core_stacktrace.c:137-162 sr_core_stacktrace_find_crash_thread *)
Definition sr_core_stacktrace_find_crash_thread (s : core_stacktrace) : option nat :=
  match cs_crash_thread s with
  | Some i => Some i
  | None =>
    match cs_threads s with
    | [] => None
    | [_] => Some 0
    | _ => find_index (fun t => match sr_core_thread_find_exit_frame t with Some _ => true | None => false end) 0 (cs_threads s)
    end
  end.
(* lib/java_stacktrace.c:274-280 sr_java_find_crash_thread *)
Definition sr_java_find_crash_thread (s : java_stacktrace) : option nat :=
  match vs_threads s with [] => None | _ => Some 0 end.

(* lib/normalize.c:505-532 sr_normalize_gdb_stacktrace *)
Definition sr_normalize_gdb_stacktrace (s : gdb_stacktrace) : gdb_stacktrace :=
  let tid := if (gs_crash_tid s =? uint32_max)%Z then
               match sr_gdb_stacktrace_find_crash_thread s with
               | None => gs_crash_tid s
               | Some i => match nth_error (gs_threads s) i with Some t => gt_tid t | None => gs_crash_tid s end
               end
             else gs_crash_tid s in
  mk_gdb_stacktrace (map sr_normalize_gdb_thread (gs_threads s))
    (option_map sr_normalize_gdb_frame (gs_crash s)) (gs_libs s) tid.
(* lib/gdb_stacktrace.c:413-433 sr_gdb_stacktrace_get_crash_frame *)
Definition sr_gdb_stacktrace_get_crash_frame (s : gdb_stacktrace) : option gdb_frame :=
  match sr_gdb_stacktrace_find_crash_thread s with
  | None => None
  | Some i =>
    match nth_error (gs_threads (sr_normalize_gdb_stacktrace s)) i with
    | None => None
    | Some t => hd_error (gt_frames t)
    end
  end.
(* lib/gdb_thread.c:251-281 sr_gdb_thread_remove_frames_below_n (memory version in P_Heap.v) *)
Definition remove_frames_below_n (t : gdb_thread) (n : nat) : gdb_thread :=
  mk_gdb_thread (gt_number t) (gt_tid t) (firstn n (gt_frames t)).
(* lib/gdb_stacktrace.c:315-326 sr_gdb_stacktrace_limit_frame_depth *)
Definition sr_gdb_stacktrace_limit_frame_depth (s : gdb_stacktrace) (depth : nat) : gdb_stacktrace :=
  mk_gdb_stacktrace (map (fun t => remove_frames_below_n t depth) (gs_threads s)) (gs_crash s) (gs_libs s) (gs_crash_tid s).

(** ** Quality: integers unbounded (no thread that fits in memory overflows the counters), quotients exact *)
(* lib/gdb_thread.c:171-178 *)
Definition gdb_frame_ok (f : gdb_frame) : bool :=
  let has_name := match gf_function_name f with None => false | Some n => negb (strcmp n (L "??") =? 0)%Z end in
  let has_source := match gf_source_file f with None => false | Some [] => false | Some _ => true end in
  gf_signal_handler_called f || (has_name && has_source).
(* lib/gdb_thread.c:163-183 sr_gdb_thread_quality_counts, lib/java_thread.c:155-171
   sr_java_thread_quality_counts: the counters are added to *)
Fixpoint quality_counts {F} (ok : F -> bool) (l : list F) (c : Z * Z) : Z * Z :=
  match l with
  | [] => c
  | f :: r => quality_counts ok r ((if ok f then fst c + 1 else fst c)%Z, (snd c + 1)%Z)
  end.
Definition sr_gdb_thread_quality_counts (t : gdb_thread) (c : Z * Z) : Z * Z := quality_counts gdb_frame_ok (gt_frames t) c.
Definition java_frame_ok (f : java_frame) : bool :=
  vf_is_native f || match vf_file_name f with None => false | Some _ => true end.
Definition sr_java_thread_quality_counts (t : java_thread) (c : Z * Z) : Z * Z := quality_counts java_frame_ok (vt_frames t) c.
Definition ratio (ok all : Z) : Q := (inject_Z ok / inject_Z all)%Q.
(* lib/gdb_thread.c:185-194 sr_gdb_thread_quality *)
Definition sr_gdb_thread_quality (t : gdb_thread) : Q :=
  let '(ok, all) := sr_gdb_thread_quality_counts t (0, 0)%Z in if (all =? 0)%Z then 1%Q else ratio ok all.
(* lib/java_thread.c:173-182 sr_java_thread_quality *)
Definition sr_java_thread_quality (t : java_thread) : Q :=
  let '(ok, all) := sr_java_thread_quality_counts t (0, 0)%Z in if (all =? 0)%Z then 1%Q else ratio ok all.
(* lib/gdb_stacktrace.c:328-343 sr_gdb_stacktrace_quality_simple *)
Definition sr_gdb_stacktrace_quality_simple (s : gdb_stacktrace) : Q :=
  let '(ok, all) := fold_left (fun c t => sr_gdb_thread_quality_counts t c) (gs_threads s) (0, 0)%Z in
  if (all =? 0)%Z then 0%Q else ratio ok all.
(* lib/gdb_stacktrace.c:345-384 sr_gdb_stacktrace_quality_complex *)
Definition sr_gdb_stacktrace_quality_complex (s : gdb_stacktrace) : Q :=
  let crash_thread := sr_gdb_stacktrace_find_crash_thread s in
  let n := sr_normalize_gdb_stacktrace s in
  let q1 := sr_gdb_stacktrace_quality_simple n in
  match crash_thread with
  | None => q1
  | Some i =>
    match nth_error (gs_threads n) i with
    | None => q1
    | Some t =>
      let q2 := sr_gdb_thread_quality t in
      let q3 := sr_gdb_thread_quality (remove_frames_below_n t 5) in
      ((25 # 100) * q1 + (35 # 100) * q2 + (4 # 10) * q3)%Q
    end
  end.
