(** * Property C30: comparison functions of frames, threads and packages are consistent orders. *)
From Verif Require Import Base Types CmpModel CmpSpec CmpSpec2 CmpProofs CmpProofs2.
Open Scope Z_scope.

(** ** Orders, for values whose numeric members are below 2^31 *)
Theorem C30_core : orders core_small
    (fun f g => cf_build_id f = cf_build_id g /\ cf_build_id_offset f = cf_build_id_offset g /\
                cf_function_name f = cf_function_name g /\ cf_file_name f = cf_file_name g /\
                cf_fingerprint f = cf_fingerprint g) core_frame_cmp.
Proof. exact core_orders. Qed.
Theorem C30_python : orders python_small
    (fun f g => pf_function_name f = pf_function_name g /\ pf_file_name f = pf_file_name g /\
                pf_file_line f = pf_file_line g /\ pf_special_function f = pf_special_function g /\
                pf_special_file f = pf_special_file g /\ pf_line_contents f = pf_line_contents g) python_frame_cmp.
Proof. exact python_orders. Qed.
Theorem C30_ruby : orders ruby_small
    (fun f g => rf_function_name f = rf_function_name g /\ rf_file_name f = rf_file_name g /\
                rf_file_line f = rf_file_line g /\ rf_special_function f = rf_special_function g /\
                rf_block_level f = rf_block_level g /\ rf_rescue_level f = rf_rescue_level g) ruby_frame_cmp.
Proof. exact ruby_orders. Qed.
Theorem C30_js : orders js_small
    (fun f g => jf_function_name f = jf_function_name g /\ jf_file_name f = jf_file_name g /\
                jf_file_line f = jf_file_line g /\ jf_line_column f = jf_line_column g) js_frame_cmp.
Proof. exact js_orders. Qed.
Theorem C30_koops : orders koops_small
    (fun f g => kf_address f = kf_address g /\ kf_reliable f = kf_reliable g /\
                kf_function_name f = kf_function_name g /\ kf_function_offset f = kf_function_offset g /\
                kf_function_length f = kf_function_length g /\ kf_module_name f = kf_module_name g /\
                kf_from_address f = kf_from_address g /\ kf_from_function_name f = kf_from_function_name g /\
                kf_from_function_offset f = kf_from_function_offset g /\
                kf_from_function_length f = kf_from_function_length g /\
                kf_from_module_name f = kf_from_module_name g /\ kf_special_stack f = kf_special_stack g) koops_frame_cmp.
Proof. exact koops_orders. Qed.
(** Exception frames are compared by name only (the message is localised). *)
Theorem C30_java : orders java_small
    (fun f g => vf_is_exception f = vf_is_exception g /\ vf_name f = vf_name g /\
                (vf_is_exception f = false ->
                 vf_class_path f = vf_class_path g /\ vf_file_name f = vf_file_name g /\
                 vf_is_native f = vf_is_native g /\ vf_file_line f = vf_file_line g)) java_frame_cmp.
Proof. exact java_orders. Qed.
(** All signal handler frames are equal; the frame number counts only on request. *)
Theorem C30_gdb : forall compare_number, orders gdb_small
    (fun f g => gf_signal_handler_called f = gf_signal_handler_called g /\
                (gf_signal_handler_called f = false ->
                 gf_function_name f = gf_function_name g /\ gf_function_type f = gf_function_type g /\
                 gf_source_file f = gf_source_file g /\ gf_source_line f = gf_source_line g /\
                 gf_library_name f = gf_library_name g /\
                 (compare_number = true -> gf_number f = gf_number g))) (gdb_frame_cmp compare_number).
Proof. exact gdb_orders. Qed.
Theorem C30_core_thread : orders (fun t => Forall core_small (ct_frames t))
    (fun t u => Forall2 (fun f g => cf_build_id f = cf_build_id g /\ cf_build_id_offset f = cf_build_id_offset g /\
                cf_function_name f = cf_function_name g /\ cf_file_name f = cf_file_name g /\
                cf_fingerprint f = cf_fingerprint g) (ct_frames t) (ct_frames u)) core_thread_cmp.
Proof. exact core_thread_orders. Qed.
Theorem C30_gdb_thread : orders (fun t => small_or_unknown (gt_number t) /\ Forall gdb_small (gt_frames t))
    (fun t u => gt_number t = gt_number u /\
      Forall2 (fun f g => gf_signal_handler_called f = gf_signal_handler_called g /\
                (gf_signal_handler_called f = false ->
                 gf_function_name f = gf_function_name g /\ gf_function_type f = gf_function_type g /\
                 gf_source_file f = gf_source_file g /\ gf_source_line f = gf_source_line g /\
                 gf_library_name f = gf_library_name g /\ gf_number f = gf_number g)) (gt_frames t) (gt_frames u)) gdb_thread_cmp.
Proof. exact gdb_thread_orders. Qed.
Theorem C30_package_nvr : orders any
  (fun p q => rp_name p = rp_name q /\ rp_version p = rp_version q /\ rp_release p = rp_release q) rpm_cmp_nvr.
Proof. exact rpm_nvr_orders. Qed.
Theorem C30_package_nevra : orders (fun p => small (rp_epoch p))
    (fun p q => rp_name p = rp_name q /\ rp_epoch p = rp_epoch q /\ rp_version p = rp_version q /\
                rp_release p = rp_release q /\ rp_architecture p = rp_architecture q) rpm_cmp_nevra.
Proof. exact rpm_nevra_orders. Qed.
Theorem C30_package : orders (fun p => small (rp_epoch p) /\ small (rp_install_time p))
    (fun p q => rp_name p = rp_name q /\ rp_epoch p = rp_epoch q /\ rp_version p = rp_version q /\
                rp_release p = rp_release q /\ rp_architecture p = rp_architecture q /\
                rp_install_time p = rp_install_time q /\ rp_consistency p = rp_consistency q) rpm_cmp.
Proof. exact rpm_orders. Qed.
(** Frames of any types: frames of different types are ordered by type. *)
Theorem C30_frame : orders frame_small equal_frames sr_frame_cmp.
Proof. exact frame_orders. Qed.
(** The comparison distances use, on frames other than core and gdb. *)
Theorem C30_distance_identity : forall f g, plain_frame f -> plain_frame g ->
  (frame_same f g = true <-> same_identity f g).
Proof. exact frame_same_plain. Qed.

(** Core frames: by function name if both have one, otherwise by build id and offset or by fingerprint. *)
Theorem C30_distance_core : forall f g,
  0 <= cf_build_id_offset f < two32 -> 0 <= cf_build_id_offset g < two32 ->
  (frame_same (FCore f) (FCore g) = true <->
   match cf_function_name f, cf_function_name g with
   | Some a, Some b => a = b
   | _, _ =>
     (cf_build_id f = cf_build_id g /\ cf_build_id_offset f = cf_build_id_offset g) \/
     (cf_fingerprint f = cf_fingerprint g /\ cf_fingerprint f <> None)
   end).
Proof. exact frame_same_core. Qed.
(** gdb frames: by function name, which must be known, and by library if both are known. *)
Theorem C30_distance_gdb : forall f g,
  frame_same (FGdb f) (FGdb g) = true <->
  gf_function_name f = gf_function_name g /\ gf_function_name f <> Some (L "??") /\
  (gf_library_name f = gf_library_name g \/ gf_library_name f = None \/ gf_library_name g = None).
Proof. exact frame_same_gdb. Qed.
(** Java threads are compared by name and topmost frame only, and so are the threads of stack traces. *)
Theorem C30_java_thread : orders (fun t => Forall java_small (firstn 1 (vt_frames t)))
    (fun t u => vt_name t = vt_name u /\
      Forall2 (fun f g => vf_is_exception f = vf_is_exception g /\ vf_name f = vf_name g /\
                (vf_is_exception f = false ->
                 vf_class_path f = vf_class_path g /\ vf_file_name f = vf_file_name g /\
                 vf_is_native f = vf_is_native g /\ vf_file_line f = vf_file_line g))
        (firstn 1 (vt_frames t)) (firstn 1 (vt_frames u))) java_thread_cmp.
Proof. exact java_thread_orders. Qed.
Theorem C30_java_stacktrace : orders (fun s => Forall (fun t => Forall java_small (firstn 1 (vt_frames t))) (vs_threads s))
    (fun s z => Forall2 (fun t u => vt_name t = vt_name u /\
      Forall2 (fun f g => vf_is_exception f = vf_is_exception g /\ vf_name f = vf_name g /\
                (vf_is_exception f = false ->
                 vf_class_path f = vf_class_path g /\ vf_file_name f = vf_file_name g /\
                 vf_is_native f = vf_is_native g /\ vf_file_line f = vf_file_line g))
        (firstn 1 (vt_frames t)) (firstn 1 (vt_frames u))) (vs_threads s) (vs_threads z)) java_stacktrace_cmp.
Proof. exact java_stacktrace_orders. Qed.

(** ** Where the subtraction wraps or is cut to 32 bits *)
Definition at_offset (o : Z) : core_frame := mk_core_frame 0 (Some (L "id")) o None None None true.
(** Different offsets compare equal. *)
Theorem C30_core_offset_refuted : exists f g, 0 <= cf_build_id_offset f < two64 /\ 0 <= cf_build_id_offset g < two64 /\
  cf_build_id_offset f <> cf_build_id_offset g /\ core_frame_cmp f g = 0.
Proof. exists (at_offset 4096), (at_offset 4294971392). unfold two64. cbn [at_offset cf_build_id_offset]. repeat split; try lia. Qed.
(** Two frames each greater than the other. *)
Theorem C30_core_flip_refuted : exists f g, 0 <= cf_build_id_offset f < two64 /\ 0 <= cf_build_id_offset g < two64 /\
  core_frame_cmp f g < 0 /\ core_frame_cmp g f < 0.
Proof. exists (at_offset 0), (at_offset 2147483648). unfold two64. cbn [at_offset cf_build_id_offset]. repeat split; try lia. Qed.
Definition at_line (n : Z) : python_frame := mk_python_frame false (Some (L "f.py")) n false (Some (L "f")) None.
(** Three frames in a cycle: sorting such frames has no well-defined result. *)
Theorem C30_line_cycle_refuted : exists f g h,
  (forall x, In x [f; g; h] -> 0 <= pf_file_line x < two32) /\
  python_frame_cmp f g < 0 /\ python_frame_cmp g h < 0 /\ python_frame_cmp h f < 0.
Proof.
  exists (at_line 0), (at_line 2000000000), (at_line 4000000000). unfold two32. split; [|repeat split].
  intros x [<-|[<-|[<-|[]]]]; cbn; lia.
Qed.
Definition at_koffset (o : Z) (m : string) : koops_frame := mk_koops_frame 0 true (Some (L "f")) o 0 (Some (L m)) 0 None 0 0 None None.
(** The 64-bit offset difference 2^32 is returned as 0, hiding the difference of the module. *)
Theorem C30_koops_offset_refuted : exists f g, kf_function_offset f <> kf_function_offset g /\
  kf_module_name f <> kf_module_name g /\ koops_frame_cmp f g = 0.
Proof. exists (at_koffset 0 "a"), (at_koffset 4294967296 "b"). repeat split; discriminate. Qed.
(** Java threads with the same name and first frame but different other frames compare equal. *)
Definition jfr (n : string) : java_frame := mk_java_frame (Some (L n)) None 0 None false false None.
Theorem C30_java_thread_refuted : exists t u, vt_frames t <> vt_frames u /\ java_thread_cmp t u = 0.
Proof.
  exists (mk_java_thread (Some (L "main")) [jfr "a"; jfr "b"]), (mk_java_thread (Some (L "main")) [jfr "a"; jfr "c"; jfr "d"]).
  split; [discriminate | reflexivity].
Qed.
(** Packages installed 2^32 seconds apart compare equal. *)
Theorem C30_package_time_refuted : exists p q, rp_install_time p <> rp_install_time q /\ rpm_cmp p q = 0.
Proof.
  exists rpm_package_new, (mk_rpm_package None 0 None None None 4294967296 ROLE_UNKNOWN []).
  split; [discriminate | reflexivity].
Qed.

(** ** Cases *)
Example C30_cases : core_small (at_offset 7) /\ core_frame_cmp (at_offset 7) (at_offset 9) < 0 /\
  python_small (at_line 7) /\ python_frame_cmp (at_line 9) (at_line 7) > 0 /\
  koops_small (at_koffset 3 "m") /\ koops_frame_cmp (at_koffset 3 "m") (at_koffset 3 "n") < 0 /\
  java_small (jfr "x") /\ java_frame_cmp (jfr "x") (jfr "x") = 0 /\
  gdb_frame_cmp true gdb_frame_new gdb_frame_new = 0 /\
  plain_frame (FJava (jfr "x")) /\ frame_same (FJava (jfr "x")) (FPython (at_line 1)) = false.
Proof. unfold core_small, python_small, koops_small, java_small, small. cbn. repeat split; lia. Qed.
(** Unnamed core frames with one build id at different offsets, known by their fingerprints. *)
Definition unnamed (o : Z) (p : string) : core_frame := mk_core_frame 0 (Some (L "id")) o None None (Some (L p)) true.
Example C30_distance_cases :
  frame_same (FCore (unnamed 1 "x")) (FCore (unnamed 2 "x")) = true /\
  frame_same (FCore (unnamed 1 "x")) (FCore (unnamed 2 "y")) = false /\
  frame_same (FCore (unnamed 1 "x")) (FCore (unnamed 1 "y")) = true /\
  frame_small (FJava (jfr "a")) /\ frame_small (FPython (at_line 3)) /\ sr_frame_cmp (FPython (at_line 3)) (FJava (jfr "a")) < 0 /\
  java_thread_cmp (mk_java_thread (Some (L "main")) [jfr "a"]) (mk_java_thread (Some (L "main")) [jfr "b"]) < 0.
Proof. cbn [frame_small]. unfold small. cbn. repeat split; lia. Qed.
Print Assumptions C30_core.
Print Assumptions C30_python.
Print Assumptions C30_ruby.
Print Assumptions C30_js.
Print Assumptions C30_koops.
Print Assumptions C30_java.
Print Assumptions C30_gdb.
Print Assumptions C30_core_thread.
Print Assumptions C30_gdb_thread.
Print Assumptions C30_package_nvr.
Print Assumptions C30_package_nevra.
Print Assumptions C30_package.
Print Assumptions C30_distance_identity.
Print Assumptions C30_core_offset_refuted.
Print Assumptions C30_core_flip_refuted.
Print Assumptions C30_line_cycle_refuted.
Print Assumptions C30_koops_offset_refuted.
Print Assumptions C30_java_thread_refuted.
Print Assumptions C30_package_time_refuted.
Print Assumptions C30_distance_core.
Print Assumptions C30_distance_gdb.
Print Assumptions C30_java_thread.
Print Assumptions C30_java_stacktrace.
Print Assumptions C30_frame.
