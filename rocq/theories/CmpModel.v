(** * Model of the comparison functions of frames, threads and packages. *)
From Verif Require Import Base Types.
Open Scope Z_scope.

(** Conversion of an integer to a 32-bit [int] and to [int64_t] (two's complement). *)
Definition to_int (z : Z) : Z := (z + 2147483648) mod two32 - 2147483648.
Definition to_int64 (z : Z) : Z := (z + 9223372036854775808) mod two64 - 9223372036854775808.

Definition byte (c : ascii) : Z := Z.of_nat (nat_of_ascii c).
(* strcmp: only the sign is specified; the model returns the difference of the first differing
   bytes, or -1 or 1 where one string ends (C strings contain no NUL byte, so the end of a string
   is smaller than any of its bytes) *)
Fixpoint strcmp (a b : str) : Z :=
  match a, b with
  | [], [] => 0
  | [], _ :: _ => -1
  | _ :: _, [] => 1
  | x :: a', y :: b' => if Ascii.eqb x y then strcmp a' b' else byte x - byte y
  end.
(* glib g_strcmp0: NULL sorts first *)
Definition g_strcmp0 (a b : option str) : Z :=
  match a, b with
  | None, None => 0
  | None, Some _ => -1
  | Some _, None => 1
  | Some x, Some y => strcmp x y
  end.
Definition b2z (b : bool) : Z := if b then 1 else 0.
(** "if (x != 0) return x;" repeated, then "return 0;" *)
Fixpoint first_nonzero (l : list Z) : Z :=
  match l with
  | [] => 0
  | x :: r => if x =? 0 then first_nonzero r else x
  end.

(* lib/core_frame.c:158-192 sr_core_frame_cmp *)
Definition core_frame_cmp (f g : core_frame) : Z :=
  first_nonzero [
    g_strcmp0 (cf_build_id f) (cf_build_id g);
    to_int (cf_build_id_offset f - cf_build_id_offset g);
    g_strcmp0 (cf_function_name f) (cf_function_name g);
    g_strcmp0 (cf_file_name f) (cf_file_name g);
    g_strcmp0 (cf_fingerprint f) (cf_fingerprint g)].
(* lib/core_frame.c:194-225 sr_core_frame_cmp_distance *)
Definition core_frame_cmp_distance (f g : core_frame) : Z :=
  match cf_function_name f, cf_function_name g with
  | Some a, Some b => strcmp a b
  | _, _ =>
    let build_id := g_strcmp0 (cf_build_id f) (cf_build_id g) in
    let build_id_offset := to_int (cf_build_id_offset f - cf_build_id_offset g) in
    if (build_id =? 0) && (build_id_offset =? 0) then 0
    else
      match cf_fingerprint f, cf_fingerprint g with
      | Some a, Some b => strcmp a b
      | _, _ => if negb (build_id =? 0) then build_id else build_id_offset
      end
  end.

(* lib/python_frame.c:116-156 sr_python_frame_cmp *)
Definition python_frame_cmp (f g : python_frame) : Z :=
  first_nonzero [
    g_strcmp0 (pf_function_name f) (pf_function_name g);
    g_strcmp0 (pf_file_name f) (pf_file_name g);
    to_int (pf_file_line f - pf_file_line g);
    b2z (pf_special_function f) - b2z (pf_special_function g);
    b2z (pf_special_file f) - b2z (pf_special_file g);
    g_strcmp0 (pf_line_contents f) (pf_line_contents g)].
(* lib/python_frame.c:158-187 sr_python_frame_cmp_distance *)
Definition python_frame_cmp_distance (f g : python_frame) : Z :=
  first_nonzero [
    g_strcmp0 (pf_function_name f) (pf_function_name g);
    g_strcmp0 (pf_file_name f) (pf_file_name g);
    b2z (pf_special_function f) - b2z (pf_special_function g);
    b2z (pf_special_file f) - b2z (pf_special_file g)].

(* lib/koops_frame.c:125-199 sr_koops_frame_cmp.  The 64-bit differences are tested as int64_t
   and then returned as int. *)
Definition koops_frame_cmp (f g : koops_frame) : Z :=
  let off (x y rest : Z) := if to_int64 (y - x) =? 0 then rest else to_int (to_int64 (y - x)) in
  let num (x y rest : Z) := if to_int (y - x) =? 0 then rest else to_int (y - x) in
  let name (x y : option str) (rest : Z) := if g_strcmp0 x y =? 0 then rest else g_strcmp0 x y in
  num (kf_address f) (kf_address g) (
  num (b2z (kf_reliable f)) (b2z (kf_reliable g)) (
  name (kf_function_name f) (kf_function_name g) (
  off (kf_function_offset f) (kf_function_offset g) (
  off (kf_function_length f) (kf_function_length g) (
  name (kf_module_name f) (kf_module_name g) (
  num (kf_from_address f) (kf_from_address g) (
  name (kf_from_function_name f) (kf_from_function_name g) (
  off (kf_from_function_offset f) (kf_from_function_offset g) (
  off (kf_from_function_length f) (kf_from_function_length g) (
  name (kf_from_module_name f) (kf_from_module_name g) (
  name (kf_special_stack f) (kf_special_stack g) 0))))))))))).
(* lib/koops_frame.c:201-212 sr_koops_frame_cmp_distance *)
Definition koops_frame_cmp_distance (f g : koops_frame) : Z :=
  g_strcmp0 (kf_function_name f) (kf_function_name g).

(* lib/java_frame.c:156-184 sr_java_frame_cmp *)
Definition java_frame_cmp (f g : java_frame) : Z :=
  if negb (Bool.eqb (vf_is_exception f) (vf_is_exception g)) then (if vf_is_exception f then 1 else -1)
  else
    let res := g_strcmp0 (vf_name f) (vf_name g) in
    if negb (res =? 0) then res
    else if vf_is_exception f then 0
    else
      let res := g_strcmp0 (vf_class_path f) (vf_class_path g) in
      if negb (res =? 0) then res
      else
        let res := g_strcmp0 (vf_file_name f) (vf_file_name g) in
        if negb (res =? 0) then res
        else if negb (Bool.eqb (vf_is_native f) (vf_is_native g)) then (if vf_is_native f then 1 else -1)
        else to_int (vf_file_line f - vf_file_line g).
(* lib/java_frame.c:186-195 sr_java_frame_cmp_distance *)
Definition java_frame_cmp_distance (f g : java_frame) : Z := g_strcmp0 (vf_name f) (vf_name g).

(* lib/gdb_frame.c:167-225 sr_gdb_frame_cmp *)
Definition gdb_frame_cmp (compare_number : bool) (f g : gdb_frame) : Z :=
  if gf_signal_handler_called f then (if gf_signal_handler_called g then 0 else 1)
  else if gf_signal_handler_called g then -1
  else
    first_nonzero ([
      g_strcmp0 (gf_function_name f) (gf_function_name g);
      g_strcmp0 (gf_function_type f) (gf_function_type g);
      g_strcmp0 (gf_source_file f) (gf_source_file g);
      to_int (gf_source_line f - gf_source_line g);
      g_strcmp0 (gf_library_name f) (gf_library_name g)] ++
      (if compare_number then [to_int (gf_number f - gf_number g)] else [])).
(* lib/gdb_frame.c:227-248 sr_gdb_frame_cmp_distance *)
Definition gdb_frame_cmp_distance (f g : gdb_frame) : Z :=
  if (g_strcmp0 (gf_function_name f) (Some (L "??")) =? 0) && (g_strcmp0 (gf_function_name g) (Some (L "??")) =? 0) then -1
  else
    let function_name := g_strcmp0 (gf_function_name f) (gf_function_name g) in
    if negb (function_name =? 0) then function_name
    else
      match gf_library_name f, gf_library_name g with
      | Some a, Some b => strcmp a b
      | _, _ => 0
      end.

(* lib/ruby_frame.c:113-150 sr_ruby_frame_cmp *)
Definition ruby_frame_cmp (f g : ruby_frame) : Z :=
  first_nonzero [
    g_strcmp0 (rf_function_name f) (rf_function_name g);
    g_strcmp0 (rf_file_name f) (rf_file_name g);
    to_int (rf_file_line f - rf_file_line g);
    b2z (rf_special_function f) - b2z (rf_special_function g);
    to_int (rf_block_level f - rf_block_level g);
    to_int (rf_rescue_level f - rf_rescue_level g)].
(* lib/ruby_frame.c:152-174 sr_ruby_frame_cmp_distance *)
Definition ruby_frame_cmp_distance (f g : ruby_frame) : Z :=
  first_nonzero [
    g_strcmp0 (rf_function_name f) (rf_function_name g);
    g_strcmp0 (rf_file_name f) (rf_file_name g);
    b2z (rf_special_function f) - b2z (rf_special_function g)].

(* lib/js_frame.c:118-145 sr_js_frame_cmp *)
Definition js_frame_cmp (f g : js_frame) : Z :=
  first_nonzero [
    g_strcmp0 (jf_function_name f) (jf_function_name g);
    g_strcmp0 (jf_file_name f) (jf_file_name g);
    to_int (jf_file_line f - jf_file_line g);
    to_int (jf_line_column f - jf_line_column g)].
(* lib/js_frame.c:147-169 sr_js_frame_cmp_distance *)
Definition js_frame_cmp_distance (f g : js_frame) : Z :=
  first_nonzero [
    to_int (jf_file_line f - jf_file_line g);
    g_strcmp0 (jf_function_name f) (jf_function_name g);
    g_strcmp0 (jf_file_name f) (jf_file_name g)].

(* lib/generic_frame.c:60-67 sr_frame_cmp.  The gdb entry of the table calls sr_gdb_frame_cmp
   with compare_number false (lib/gdb_frame.c:40-47). *)
Definition sr_frame_cmp (f g : frame) : Z :=
  match f, g with
  | FCore f, FCore g => core_frame_cmp f g
  | FPython f, FPython g => python_frame_cmp f g
  | FKoops f, FKoops g => koops_frame_cmp f g
  | FJava f, FJava g => java_frame_cmp f g
  | FGdb f, FGdb g => gdb_frame_cmp false f g
  | FRuby f, FRuby g => ruby_frame_cmp f g
  | FJs f, FJs g => js_frame_cmp f g
  | _, _ => frame_type f - frame_type g
  end.
(* lib/generic_frame.c:69-76 sr_frame_cmp_distance *)
Definition sr_frame_cmp_distance (f g : frame) : Z :=
  match f, g with
  | FCore f, FCore g => core_frame_cmp_distance f g
  | FPython f, FPython g => python_frame_cmp_distance f g
  | FKoops f, FKoops g => koops_frame_cmp_distance f g
  | FJava f, FJava g => java_frame_cmp_distance f g
  | FGdb f, FGdb g => gdb_frame_cmp_distance f g
  | FRuby f, FRuby g => ruby_frame_cmp_distance f g
  | FJs f, FJs g => js_frame_cmp_distance f g
  | _, _ => frame_type f - frame_type g
  end.
(** The test distances make: 0 == sr_frame_cmp_distance(f, g). *)
Definition frame_same (f g : frame) : bool := sr_frame_cmp_distance f g =? 0.

(** ** Threads *)
(* the loop of lib/core_thread.c:118-133 and lib/gdb_thread.c:128-143 *)
Fixpoint frames_cmp {F} (cmp : F -> F -> Z) (fs gs : list F) : Z :=
  match fs, gs with
  | [], [] => 0
  | _ :: _, [] => 1
  | [], _ :: _ => -1
  | f :: fs', g :: gs' => if cmp f g =? 0 then frames_cmp cmp fs' gs' else cmp f g
  end.
(* lib/core_thread.c:112-136 sr_core_thread_cmp *)
Definition core_thread_cmp (t u : core_thread) : Z := frames_cmp core_frame_cmp (ct_frames t) (ct_frames u).
(* lib/gdb_thread.c:120-146 sr_gdb_thread_cmp *)
Definition gdb_thread_cmp (t u : gdb_thread) : Z :=
  let number := to_int (gt_number t - gt_number u) in
  if negb (number =? 0) then number else frames_cmp (gdb_frame_cmp true) (gt_frames t) (gt_frames u).
(* lib/java_thread.c:119-138 sr_java_thread_cmp *)
Definition java_thread_cmp (t u : java_thread) : Z :=
  let res := g_strcmp0 (vt_name t) (vt_name u) in
  if negb (res =? 0) then res
  else
    match vt_frames t, vt_frames u with
    | _ :: _, [] => 1
    | [], _ :: _ => -1
    | f :: _, g :: _ => java_frame_cmp f g
    | [], [] => 0
    end.
(* lib/java_stacktrace.c:109-133 sr_java_stacktrace_cmp: the same loop over threads *)
Definition java_stacktrace_cmp (s u : java_stacktrace) : Z :=
  frames_cmp java_thread_cmp (vs_threads s) (vs_threads u).

(** ** Packages *)
(* lib/rpm.c:117-135 sr_rpm_package_cmp_nvr *)
Definition rpm_cmp_nvr (p q : rpm_package) : Z :=
  first_nonzero [
    g_strcmp0 (rp_name p) (rp_name q);
    g_strcmp0 (rp_version p) (rp_version q);
    g_strcmp0 (rp_release p) (rp_release q)].
(* lib/rpm.c:95-115 sr_rpm_package_cmp_nevra *)
Definition rpm_cmp_nevra (p q : rpm_package) : Z :=
  first_nonzero [
    rpm_cmp_nvr p q;
    to_int (rp_epoch p - rp_epoch q);
    g_strcmp0 (rp_architecture p) (rp_architecture q)].
(* lib/rpm.c:820-881 sr_rpm_consistency_cmp *)
Definition rpm_consistency_cmp (p q : rpm_consistency) : Z :=
  first_nonzero [
    g_strcmp0 (rc_path p) (rc_path q);
    b2z (rc_owner_changed p) - b2z (rc_owner_changed q);
    b2z (rc_group_changed p) - b2z (rc_group_changed q);
    b2z (rc_mode_changed p) - b2z (rc_mode_changed q);
    b2z (rc_md5_mismatch p) - b2z (rc_md5_mismatch q);
    b2z (rc_size_changed p) - b2z (rc_size_changed q);
    b2z (rc_major_number_changed p) - b2z (rc_major_number_changed q);
    b2z (rc_minor_number_changed p) - b2z (rc_minor_number_changed q);
    b2z (rc_symlink_changed p) - b2z (rc_symlink_changed q);
    b2z (rc_modification_time_changed p) - b2z (rc_modification_time_changed q)].
(* lib/rpm.c:71-93 sr_rpm_package_cmp.  The 64-bit install time difference is tested as int64_t
   and then returned as int.  The consistency lists are compared by
   lib/rpm.c:883-904 sr_rpm_consistency_cmp_recursive, the same loop as [frames_cmp]. *)
Definition rpm_cmp (p q : rpm_package) : Z :=
  let nevra := rpm_cmp_nevra p q in
  if negb (nevra =? 0) then nevra
  else
    let install_time := to_int64 (rp_install_time p - rp_install_time q) in
    if negb (install_time =? 0) then to_int install_time
    else frames_cmp rpm_consistency_cmp (rp_consistency p) (rp_consistency q).
