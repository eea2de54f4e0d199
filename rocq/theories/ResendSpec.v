(** * Stack traces sent on from one to the next. *)
From Verif Require Import Base JsonSpec Types JsonTypesSpec TextModel ReportModel JsonKeepSpec.
Open Scope Z_scope.

(** [s'] is what is received after [n] hops. *)
Inductive hops : nat -> stacktrace -> stacktrace -> Prop :=
| no_hop s : hops 0 s s
| one_more n s s1 s' : hops n s s1 -> received s1 s' -> hops (S n) s s'.
(** The thread of a core dump that is written as crash thread: the marked one, or the first. *)
Definition written_crash (t : core_stacktrace) (u : core_thread) : Prop :=
  nth_error (cs_threads t) (match cs_crash_thread t with Some i => i | None => O end) = Some u.
(** Nothing changes after the first hop.  A core dump: the crash thread has frames, or neither has the first
    thread.  JavaScript: engine and runtime are both known or both not, or there is no platform. *)
Definition settles (s : stacktrace) : Prop :=
  match s with
  | SCore t => (exists u, written_crash t u /\ ct_frames u <> []) \/ (exists u, nth_error (cs_threads t) 0 = Some u /\ ct_frames u = [])
  | SJs t => js_platform t = 0 \/ (js_platform t mod 16 = 1 <-> js_platform t / 16 = 1)
  | _ => True
  end.
(** The strings are made of bytes that JSON can carry, no frame is empty, and a core dump has threads. *)
Definition clean (s : stacktrace) : Prop :=
  match s with
  | SCore t => core_safe t /\ cs_threads t <> []
  | SPython t => opt_safe (ps_exception_name t) /\ Forall (fun f => ~ python_frame_empty f /\ python_frame_safe f) (ps_frames t)
  | SKoops t => koops_safe t
  | SJava t => java_safe t
  | SRuby t => opt_safe (rs_exception_name t) /\ Forall (fun f => ~ ruby_frame_empty f /\ ruby_frame_safe f) (rs_frames t)
  | SJs t => opt_safe (js_exception_name t) /\ Forall (fun f => ~ js_frame_empty f /\ js_frame_safe f) (js_frames t)
  | SGdb _ => False
  end.
