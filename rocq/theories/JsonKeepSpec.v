(** * What a stack trace is known by, before and after it is sent as JSON. *)
From Verif Require Import Base JsonSpec Types JsonTypesSpec CrashSpec TextModel ReportModel ReportSpec.
Open Scope Z_scope.

(** The members hold values of their C types, the text written is JSON, and the kernel modules are no
    more than the reader survives. *)
Definition members_in_range (s : stacktrace) : Prop :=
  match s with
  | SCore s => core_range s | SPython s => python_range s | SKoops s => koops_range s /\ koops_modules_fit s
  | SJava s => java_range s | SRuby s => ruby_range s | SJs s => js_range s | SGdb _ => False
  end.
Definition sendable (s : stacktrace) : Prop :=
  members_in_range s /\ exists text, sr_stacktrace_to_json s = Some text /\ valid_json text.
(** [s'] is what is read from a text [s] is written as. *)
Definition received (s s' : stacktrace) : Prop :=
  exists text v, sr_stacktrace_to_json s = Some text /\ json_text v text /\
    sr_stacktrace_from_json (stacktrace_type s) v = Ok (Some s').

(** Numbers that come back as they were. *)
Definition fits32 (z : Z) : Prop := z < 2 ^ 31.
Definition fits64 (z : Z) : Prop := z < 2 ^ 63.
(** all ones stands for "not set" *)
Definition fits_address (z : Z) : Prop := z < 2 ^ 63 \/ z = ulong_max.

(** ** What must fit for the duplicate hash: the number shown on the line of the frame, if any *)
Definition dup_fits (f : frame) : Prop :=
  match f with
  | FCore f =>
    match cf_build_id f, cf_function_name f, cf_fingerprint f with
    | Some _, _, _ | None, None, Some _ => fits_address (cf_build_id_offset f)
    | None, Some _, _ => True
    | None, None, None => fits_address (cf_address f)
    end
  | FKoops f => kf_function_name f = None -> fits64 (kf_address f)
  | FJava f => vf_name f = None -> fits32 (vf_file_line f) /\ (vf_file_name f = None -> vf_file_line f = 0)
  | FPython f => fits32 (pf_file_line f)
  | FRuby f => fits32 (rf_file_line f)
  | FJs f => fits32 (jf_file_line f)
  | FGdb _ => False
  end.
(** ** What must fit for the backtrace hash: all numbers shown, and flags that have no name to go with *)
Definition bt_fits (f : frame) : Prop :=
  match f with
  | FCore f => fits_address (cf_address f) /\ fits_address (cf_build_id_offset f)
  | FKoops f => fits64 (kf_address f) /\ fits64 (kf_function_offset f) /\ fits64 (kf_function_length f) /\
                fits64 (kf_from_address f) /\ fits64 (kf_from_function_offset f) /\ fits64 (kf_from_function_length f)
  | FJava f => fits32 (vf_file_line f) /\ (vf_file_name f = None -> vf_file_line f = 0)
  | FPython f => fits32 (pf_file_line f) /\ (pf_special_file f = true -> pf_file_name f <> None) /\
                 (pf_special_function f = true -> pf_function_name f <> None)
  | FRuby f => fits32 (rf_file_line f) /\ fits32 (rf_block_level f) /\ fits32 (rf_rescue_level f) /\
               (rf_special_function f = true -> rf_function_name f <> None)
  | FJs f => fits32 (jf_file_line f)
  | FGdb _ => False
  end.
(** ** What must fit for the short text *)
Definition short_fits (f : frame) : Prop :=
  match f with
  | FCore f => cf_function_name f = None -> fits_address (cf_build_id_offset f)
  | FKoops f => True
  | FJava f => vf_is_exception f = false -> fits32 (vf_file_line f) /\ (vf_file_name f = None -> vf_file_line f = 0)
  | FPython f => (pf_file_name f <> None -> fits32 (pf_file_line f)) /\
                 (pf_special_function f = true -> pf_function_name f <> None)
  | FRuby f => (rf_file_name f <> None -> fits32 (rf_file_line f)) /\ fits32 (rf_block_level f) /\
               fits32 (rf_rescue_level f) /\ (rf_special_function f = true -> rf_function_name f <> None)
  | FJs f => fits32 (jf_file_line f) /\ fits32 (jf_line_column f)
  | FGdb _ => False
  end.
(** ** What must fit for distances: what frames are compared by *)
Definition distance_fits (f : frame) : Prop :=
  match f with
  | FCore f => fits_address (cf_build_id_offset f)
  | FKoops _ | FJava _ => True
  | FPython f => (pf_special_file f = true -> pf_file_name f <> None) /\
                 (pf_special_function f = true -> pf_function_name f <> None)
  | FRuby f => rf_special_function f = true -> rf_function_name f <> None
  | FJs f => fits32 (jf_file_line f)
  | FGdb _ => False
  end.
(** ** What must fit for the reason: the line named; a reason found in the oops is not sent *)
Definition reason_fits (s : stacktrace) : Prop :=
  match s with
  | SCore _ => True
  | SKoops s => ks_reason s = None
  | SPython s => forall l f, ps_frames s = l ++ [f] -> fits32 (pf_file_line f)
  | SRuby s => forall f l, rs_frames s = f :: l -> fits32 (rf_file_line f)
  | SJs s => forall f l, js_frames s = f :: l -> fits32 (jf_file_line f) /\ fits32 (jf_line_column f)
  | SJava s => forall t r l f, vs_threads s = t :: r -> vt_frames t = l ++ [f] -> vf_file_name f <> None -> fits32 (vf_file_line f)
  | SGdb _ => False
  end.
(** ** When a core dump's crash thread comes back.  The writer marks the first thread if none is marked,
    and a mark on a thread without frames is lost. *)
Definition crash_fits (s : core_stacktrace) : Prop :=
  match cs_crash_thread s with
  | Some i => exists t, nth_error (cs_threads s) i = Some t /\ (ct_frames t <> [] \/ length (cs_threads s) = 1%nat)
  | None => forall t r, cs_threads s = t :: r -> r = [] \/ ct_frames t = [] \/ core_aborts t
  end.
