(** * Data structures of the library.

    Lists linked by [next] pointers are Coq lists; [char *] is [option str] (None is NULL);
    unsigned integers are [Z] (their ranges are stated by the [*_range] predicates). *)
From Verif Require Import Base.
Open Scope Z_scope.

Definition two64 : Z := 18446744073709551616.
Definition two32 : Z := 4294967296.
Definition two16 : Z := 65536.
(* ULONG_MAX, i.e. (uint64_t)-1: "unset" in core frames *)
Definition ulong_max : Z := 18446744073709551615.

(* include/core/frame.h struct sr_core_frame *)
Record core_frame := mk_core_frame {
  cf_address : Z;
  cf_build_id : option str;
  cf_build_id_offset : Z;
  cf_function_name : option str;
  cf_file_name : option str;
  cf_fingerprint : option str;
  cf_fingerprint_hashed : bool }.
(* lib/core_frame.c:67-79 sr_core_frame_init *)
Definition core_frame_new : core_frame := mk_core_frame ulong_max None ulong_max None None None true.

(* include/core/thread.h struct sr_core_thread; the member [id] is never initialised, read or
   written by the modelled code and is left out. *)
Record core_thread := mk_core_thread { ct_frames : list core_frame }.

(* include/core/stacktrace.h struct sr_core_stacktrace.  [crash_thread] points to a thread of
   the list: it is modelled by that thread's index. *)
Record core_stacktrace := mk_core_stacktrace {
  cs_signal : Z;
  cs_executable : option str;
  cs_crash_thread : option nat;
  cs_threads : list core_thread;
  cs_only_crash_thread : bool }.
(* lib/core_stacktrace.c:77-86 sr_core_stacktrace_init *)
Definition core_stacktrace_new : core_stacktrace := mk_core_stacktrace 0 None None [] false.

(* include/python/frame.h struct sr_python_frame *)
Record python_frame := mk_python_frame {
  pf_special_file : bool;
  pf_file_name : option str;
  pf_file_line : Z;
  pf_special_function : bool;
  pf_function_name : option str;
  pf_line_contents : option str }.
(* lib/python_frame.c:69-74 sr_python_frame_init *)
Definition python_frame_new : python_frame := mk_python_frame false None 0 false None None.
(* include/python/stacktrace.h *)
Record python_stacktrace := mk_python_stacktrace {
  ps_exception_name : option str;
  ps_frames : list python_frame }.

(* include/ruby/frame.h struct sr_ruby_frame *)
Record ruby_frame := mk_ruby_frame {
  rf_file_name : option str;
  rf_file_line : Z;
  rf_special_function : bool;
  rf_function_name : option str;
  rf_block_level : Z;
  rf_rescue_level : Z }.
(* lib/ruby_frame.c:70-75 sr_ruby_frame_init *)
Definition ruby_frame_new : ruby_frame := mk_ruby_frame None 0 false None 0 0.
(* include/ruby/stacktrace.h *)
Record ruby_stacktrace := mk_ruby_stacktrace {
  rs_exception_name : option str;
  rs_frames : list ruby_frame }.

(* include/js/frame.h struct sr_js_frame *)
Record js_frame := mk_js_frame {
  jf_file_name : option str;
  jf_file_line : Z;
  jf_line_column : Z;
  jf_function_name : option str }.
(* lib/js_frame.c:75-80 sr_js_frame_init *)
Definition js_frame_new : js_frame := mk_js_frame None 0 0 None.
(* include/js/stacktrace.h; the platform is the 32-bit word runtime << 4 | engine *)
Record js_stacktrace := mk_js_stacktrace {
  js_exception_name : option str;
  js_frames : list js_frame;
  js_platform : Z }.

(* include/java/frame.h struct sr_java_frame *)
Record java_frame := mk_java_frame {
  vf_name : option str;
  vf_file_name : option str;
  vf_file_line : Z;
  vf_class_path : option str;
  vf_is_native : bool;
  vf_is_exception : bool;
  vf_message : option str }.
(* lib/java_frame.c:85-90 sr_java_frame_init *)
Definition java_frame_new : java_frame := mk_java_frame None None 0 None false false None.
(* include/java/thread.h struct sr_java_thread *)
Record java_thread := mk_java_thread {
  vt_name : option str;
  vt_frames : list java_frame }.
(* include/java/stacktrace.h *)
Record java_stacktrace := mk_java_stacktrace { vs_threads : list java_thread }.

(* include/koops/frame.h struct sr_koops_frame *)
Record koops_frame := mk_koops_frame {
  kf_address : Z;
  kf_reliable : bool;
  kf_function_name : option str;
  kf_function_offset : Z;
  kf_function_length : Z;
  kf_module_name : option str;
  kf_from_address : Z;
  kf_from_function_name : option str;
  kf_from_function_offset : Z;
  kf_from_function_length : Z;
  kf_from_module_name : option str;
  kf_special_stack : option str }.
(* lib/koops_frame.c:70-75 sr_koops_frame_init *)
Definition koops_frame_new : koops_frame :=
  mk_koops_frame 0 false None 0 0 None 0 None 0 0 None None.

(* lib/koops_stacktrace.c:36-54 sr_flags: letter and member name *)
Definition taint_flags : list (ascii * str) := [
  ("P", L "module_proprietary"); ("F", L "forced_module"); ("S", L "smp_unsafe");
  ("R", L "forced_removal"); ("M", L "mce"); ("B", L "page_release"); ("U", L "userspace");
  ("D", L "died_recently"); ("A", L "acpi_overridden"); ("W", L "warning");
  ("C", L "staging_driver"); ("I", L "firmware_workaround"); ("O", L "module_out_of_tree");
  ("E", L "unsigned_module"); ("L", L "soft_lockup"); ("K", L "live_patched")]%char.

(* include/koops/stacktrace.h struct sr_koops_stacktrace.  The taint members are the list of
   booleans in the order of the table above; [modules] is the NULL-terminated array. *)
Record koops_stacktrace := mk_koops_stacktrace {
  ks_version : option str;
  ks_taint : list bool;
  ks_modules : option (list str);
  ks_raw_oops : option str;
  ks_frames : list koops_frame;
  ks_reason : option str }.
(* lib/koops_stacktrace.c:114-119 sr_koops_stacktrace_init *)
Definition no_taint : list bool := repeat false 16.
Definition koops_stacktrace_new : koops_stacktrace := mk_koops_stacktrace None no_taint None None [] None.

(* include/gdb/frame.h struct sr_gdb_frame *)
Record gdb_frame := mk_gdb_frame {
  gf_function_name : option str;
  gf_function_type : option str;
  gf_number : Z;
  gf_source_file : option str;
  gf_source_line : Z;
  gf_signal_handler_called : bool;
  gf_address : Z;
  gf_library_name : option str }.
(* lib/gdb_frame.c:75-87 sr_gdb_frame_init *)
Definition gdb_frame_new : gdb_frame := mk_gdb_frame None None 0 None 4294967295 false ulong_max None.
(* include/gdb/thread.h struct sr_gdb_thread *)
Record gdb_thread := mk_gdb_thread {
  gt_number : Z;
  gt_tid : Z;
  gt_frames : list gdb_frame }.
(* lib/gdb_thread.c:73-80 sr_gdb_thread_init *)
Definition gdb_thread_new : gdb_thread := mk_gdb_thread 4294967295 4294967295 [].
(* include/gdb/sharedlib.h struct sr_gdb_sharedlib *)
Record gdb_sharedlib := mk_gdb_sharedlib {
  gl_from : Z;
  gl_to : Z;
  gl_symbols : Z;
  gl_soname : option str }.
(* include/gdb/stacktrace.h struct sr_gdb_stacktrace *)
Record gdb_stacktrace := mk_gdb_stacktrace {
  gs_threads : list gdb_thread;
  gs_crash : option gdb_frame;
  gs_libs : list gdb_sharedlib;
  gs_crash_tid : Z }.

(* include/rpm.h:51-64 struct sr_rpm_consistency *)
Record rpm_consistency := mk_rpm_consistency {
  rc_path : option str;
  rc_owner_changed : bool;
  rc_group_changed : bool;
  rc_mode_changed : bool;
  rc_md5_mismatch : bool;
  rc_size_changed : bool;
  rc_major_number_changed : bool;
  rc_minor_number_changed : bool;
  rc_symlink_changed : bool;
  rc_modification_time_changed : bool }.
(* include/rpm.h:45-49 enum sr_package_role *)
Inductive package_role := ROLE_UNKNOWN | ROLE_AFFECTED.
(* include/rpm.h:66-77 struct sr_rpm_package *)
Record rpm_package := mk_rpm_package {
  rp_name : option str;
  rp_epoch : Z;
  rp_version : option str;
  rp_release : option str;
  rp_architecture : option str;
  rp_install_time : Z;
  rp_role : package_role;
  rp_consistency : list rpm_consistency }.
(* lib/rpm.c:47-51 sr_rpm_package_init *)
Definition rpm_package_new : rpm_package := mk_rpm_package None 0 None None None 0 ROLE_UNKNOWN [].

(** Frames of any type, as [struct sr_frame] with its type tag. *)
Inductive frame :=
| FCore (f : core_frame) | FPython (f : python_frame) | FKoops (f : koops_frame) | FJava (f : java_frame)
| FGdb (f : gdb_frame) | FRuby (f : ruby_frame) | FJs (f : js_frame).
(* include/report_type.h:32-45 enum sr_report_type *)
Definition frame_type (f : frame) : Z :=
  match f with
  | FCore _ => 1 | FPython _ => 2 | FKoops _ => 3 | FJava _ => 4 | FGdb _ => 5 | FRuby _ => 6 | FJs _ => 7
  end.
