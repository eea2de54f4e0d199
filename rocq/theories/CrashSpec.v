(** * Specification of crash threads and quality, independent of the search loops. *)
From Verif Require Import Base Types CmpModel NormSpec.
From Coq Require Import QArith.
Close Scope Q_scope.
Open Scope nat_scope.

(** Positions in a list: the only / the first element satisfying [P], and the least one ([cmp] is a
    comparison as for qsort), the earliest among equals. *)
Definition only {A} (P : A -> Prop) (l : list A) (i : nat) : Prop :=
  exists t, nth_error l i = Some t /\ P t /\ forall j u, nth_error l j = Some u -> P u -> j = i.
Definition first {A} (P : A -> Prop) (l : list A) (i : nat) : Prop :=
  exists t, nth_error l i = Some t /\ P t /\ forall j u, j < i -> nth_error l j = Some u -> ~ P u.
Definition least {A} (P : A -> Prop) (cmp : A -> A -> Z) (l : list A) (i : nat) : Prop :=
  exists t, nth_error l i = Some t /\ P t /\
    forall j u, nth_error l j = Some u -> P u -> (cmp t u <= 0)%Z /\ (j < i -> (cmp t u < 0)%Z).
Definition nowhere {A} (P : A -> Prop) (l : list A) : Prop := forall t, In t l -> ~ P t.

(** The thread's top frame is in the function of the crash frame. *)
Definition shows_crash (s : gdb_stacktrace) (t : gdb_thread) : Prop :=
  exists c n f r, gs_crash s = Some c /\ gf_function_name c = Some n /\ gt_frames t = f :: r /\ gf_function_name f = Some n.
Definition aborts (t : gdb_thread) : Prop := exists f, In f (gt_frames t) /\ gdb_exit f.
Definition unknown_tid : Z := 4294967295.
Definition crash_tid_missing (s : gdb_stacktrace) : Prop :=
  gs_crash_tid s = unknown_tid \/ nowhere (fun t => gt_tid t = gs_crash_tid s) (gs_threads s).
(** Threads compared frame by frame. *)
Definition by_frames (t u : gdb_thread) : Z := frames_cmp (gdb_frame_cmp true) (gt_frames t) (gt_frames u).

(** The documented priorities. *)
Inductive gdb_crash_thread (s : gdb_stacktrace) : option nat -> Prop :=
| ct_no_threads : gs_threads s = [] -> gdb_crash_thread s None
| ct_single t : gs_threads s = [t] -> gdb_crash_thread s (Some 0)
| ct_tid i : 2 <= length (gs_threads s) -> gs_crash_tid s <> unknown_tid ->
    first (fun t => gt_tid t = gs_crash_tid s) (gs_threads s) i -> gdb_crash_thread s (Some i)
| ct_unique i : 2 <= length (gs_threads s) -> crash_tid_missing s ->
    only (shows_crash s) (gs_threads s) i -> gdb_crash_thread s (Some i)
| ct_aborting i : 2 <= length (gs_threads s) -> crash_tid_missing s ->
    (forall j, ~ only (shows_crash s) (gs_threads s) j) ->
    only (fun t => shows_crash s t /\ aborts t) (gs_threads s) i -> gdb_crash_thread s (Some i)
| ct_guess i : 2 <= length (gs_threads s) -> crash_tid_missing s ->
    (forall j, ~ only (shows_crash s) (gs_threads s) j) ->
    (forall j, ~ only (fun t => shows_crash s t /\ aborts t) (gs_threads s) j) ->
    least (shows_crash s) by_frames (gs_threads s) i -> gdb_crash_thread s (Some i)
| ct_nothing : 2 <= length (gs_threads s) -> crash_tid_missing s -> nowhere (shows_crash s) (gs_threads s) ->
    gdb_crash_thread s None.

(** For core stacktraces. *)
Definition core_aborts (t : core_thread) : Prop := exists f, In f (ct_frames t) /\ core_exit f.
Inductive core_crash (s : core_stacktrace) : option nat -> Prop :=
| cc_known i : cs_crash_thread s = Some i -> core_crash s (Some i)
| cc_no_threads : cs_crash_thread s = None -> cs_threads s = [] -> core_crash s None
| cc_single t : cs_crash_thread s = None -> cs_threads s = [t] -> core_crash s (Some 0)
| cc_first i : cs_crash_thread s = None -> 2 <= length (cs_threads s) -> first core_aborts (cs_threads s) i -> core_crash s (Some i)
| cc_nothing : cs_crash_thread s = None -> 2 <= length (cs_threads s) -> nowhere core_aborts (cs_threads s) -> core_crash s None.

(** Quality.  [counted P l n]: exactly [n] elements of [l] satisfy [P]. *)
Inductive counted {A} (P : A -> Prop) : list A -> Z -> Prop :=
| counted_nil : counted P [] 0
| counted_yes x l n : P x -> counted P l n -> counted P (x :: l) (n + 1)
| counted_no x l n : ~ P x -> counted P l n -> counted P (x :: l) n.
(** A frame is fully known. *)
Definition gdb_known (f : gdb_frame) : Prop :=
  gf_signal_handler_called f = true \/
  exists n src, gf_function_name f = Some n /\ n <> L "??" /\ gf_source_file f = Some src /\ src <> [].
Definition java_known (f : java_frame) : Prop := vf_is_native f = true \/ vf_file_name f <> None.
(** [q] is the part of [l] satisfying [P]; [dflt] for the empty list. *)
Definition proportion {A} (P : A -> Prop) (l : list A) (dflt q : Q) : Prop :=
  (l = [] /\ (q == dflt)%Q) \/
  (exists n, l <> [] /\ counted P l n /\ (q * inject_Z (Z.of_nat (length l)) == inject_Z n)%Q).
Definition in_unit (q : Q) : Prop := (0 <= q /\ q <= 1)%Q.
