(** * Reports made from problem directories and sent as JSON. *)
From Coq Require Import Permutation.
From Verif Require Import Base Types JsonSpec JsonTypesSpec TextModel RpmModel SystemModel ReportModel JsonKeepSpec ResendSpec.
Open Scope Z_scope.

(** Every readable file of the directory is made of bytes that JSON can carry without \u escapes. *)
Definition safe_files (d : directory) : Prop := forall name text, d name = Contents text -> json_safe text.
(** qsort only moves the elements, whatever it is told to compare them by. *)
Definition moves (qsort : (rpm_package -> rpm_package -> Z) -> list rpm_package -> list rpm_package) : Prop :=
  forall cmp l, Permutation l (qsort cmp l).
(** The stack trace of a core dump, which is read from JSON, can be written again: its strings can be carried, and it
    has a thread. *)
Definition core_clean (r : report) : Prop :=
  forall s, rep_stacktrace r = Some (SCore s) -> core_safe s /\ cs_threads s <> [].
(** An oops has no more kernel modules than the reader survives. *)
Definition few_modules (r : report) : Prop := forall s, rep_stacktrace r = Some (SKoops s) -> koops_modules_fit s.
(** All numbers are below the reader's limits; a Java frame without a file name has no line; a frame of a core dump
    without a fingerprint does not say that it is not hashed; the crash thread of a core dump is marked and has frames,
    or no thread is marked and the first one has no frames. *)
Definition trace_fits (s : stacktrace) : Prop :=
  match s with
  | SPython t => Forall (fun f => fits32 (pf_file_line f)) (ps_frames t)
  | SRuby t => Forall (fun f => fits32 (rf_file_line f) /\ fits32 (rf_block_level f) /\ fits32 (rf_rescue_level f)) (rs_frames t)
  | SJava t => Forall (fun f => fits32 (vf_file_line f) /\ (vf_file_name f = None -> vf_file_line f = 0)) (java_frames t)
  | SKoops t => Forall (fun f => fits64 (kf_address f) /\ fits64 (kf_function_offset f) /\ fits64 (kf_function_length f) /\
      fits64 (kf_from_address f) /\ fits64 (kf_from_function_offset f) /\ fits64 (kf_from_function_length f)) (ks_frames t)
  | SCore t => Forall (fun f => fits_address (cf_address f) /\ fits_address (cf_build_id_offset f) /\
                                (cf_fingerprint f = None -> cf_fingerprint_hashed f = true)) (core_frames t) /\
               ((exists u, written_crash t u /\ ct_frames u <> [] /\ cs_crash_thread t <> None) \/
                (cs_crash_thread t = None /\ forall u, nth_error (cs_threads t) 0 = Some u -> ct_frames u = []))
  | SJs _ | SGdb _ => False
  end.
Definition numbers_fit (r : report) : Prop :=
  fits32 (rep_serial r) /\ Forall (fun p => fits32 (rp_epoch p) /\ fits64 (rp_install_time p)) (rep_packages r) /\
  forall s, rep_stacktrace r = Some s -> trace_fits s.
(** What the receiver lacks all the same: the CPE of the operating system and the reason of a kernel oops. *)
Definition without_cpe (os : operating_system) : operating_system :=
  mk_os (os_name os) (os_version os) (os_architecture os) None (os_uptime os) (os_desktop os) (os_variant os).
Definition without_reason (s : stacktrace) : stacktrace :=
  match s with
  | SKoops t => SKoops (mk_koops_stacktrace (ks_version t) (ks_taint t) (ks_modules t) (ks_raw_oops t) (ks_frames t) None)
  | s => s
  end.
Definition as_received (r : report) : report :=
  mk_report (rep_version r) (rep_type r) (rep_reporter_name r) (rep_reporter_version r) (rep_user_root r) (rep_user_local r)
    (option_map without_cpe (rep_os r)) (rep_component r) (rep_packages r) (option_map without_reason (rep_stacktrace r))
    (rep_auth r) (rep_serial r).
