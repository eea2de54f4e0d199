(** * Stack traces read from text, and how they come back when they are sent as JSON. *)
From Verif Require Import Base Types JsonTypesSpec TextModel JsonKeepSpec.
Open Scope Z_scope.

(** The types that are read from text: Python, kernel oops, Java, Ruby, JavaScript. *)
Definition text_type (type : nat) : Prop := In type [2; 3; 4; 6; 7]%nat.
(** All numbers are below the reader's limits, and a Java frame without a file name has no line. *)
Definition all_fit (s : stacktrace) : Prop :=
  match s with
  | SPython t => Forall (fun f => fits32 (pf_file_line f)) (ps_frames t)
  | SRuby t => Forall (fun f => fits32 (rf_file_line f) /\ fits32 (rf_block_level f) /\ fits32 (rf_rescue_level f)) (rs_frames t)
  | SJs t => Forall (fun f => fits32 (jf_file_line f) /\ fits32 (jf_line_column f)) (js_frames t)
  | SJava t => Forall (fun f => fits32 (vf_file_line f) /\ (vf_file_name f = None -> vf_file_line f = 0)) (java_frames t)
  | SKoops t => Forall (fun f => fits64 (kf_address f) /\ fits64 (kf_function_offset f) /\ fits64 (kf_function_length f) /\
      fits64 (kf_from_address f) /\ fits64 (kf_from_function_offset f) /\ fits64 (kf_from_function_length f)) (ks_frames t)
  | SCore _ | SGdb _ => False
  end.
(** What is lost all the same: the engine of a JavaScript trace, which comes back as the runtime (0x10 is
    Node.js), and the reason of a kernel oops. *)
Definition but_for (s : stacktrace) : stacktrace :=
  match s with
  | SJs t => SJs (mk_js_stacktrace (js_exception_name t) (js_frames t) 16)
  | SKoops t => SKoops (mk_koops_stacktrace (ks_version t) (ks_taint t) (ks_modules t) (ks_raw_oops t) (ks_frames t) None)
  | s => s
  end.
