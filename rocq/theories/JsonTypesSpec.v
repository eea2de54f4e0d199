(** * What it means for a stack trace to survive JSON, and what a reader must return. *)
From Verif Require Import Base JsonSpec Types.
Open Scope Z_scope.

(** [text] is a JSON text, and whatever value it denotes, [read] turns it into [x]. *)
Definition survives {A} (text : str) (read : json -> res A) (x : A) : Prop :=
  valid_json text /\ forall v, json_text v text -> read v = Ok x.

(** Strings whose bytes JSON can carry without \u escapes. *)
Definition opt_safe (o : option str) : Prop := match o with Some s => json_safe s | None => True end.

(** Values of the C integer types. *)
Definition u64 (z : Z) : Prop := 0 <= z < two64.
Definition u32 (z : Z) : Prop := 0 <= z < two32.
Definition u16 (z : Z) : Prop := 0 <= z < two16.

(** The reader clips 64-bit numbers at 2^63-1 and 32-bit numbers at 2^31-1. *)
Definition clip64 (z : Z) : Z := Z.min z 9223372036854775807.
Definition clip32 (z : Z) : Z := Z.min z 2147483647.

(** ** Core *)
Definition core_frame_range (f : core_frame) : Prop := u64 (cf_address f) /\ u64 (cf_build_id_offset f).
Definition core_frame_safe (f : core_frame) : Prop :=
  opt_safe (cf_build_id f) /\ opt_safe (cf_function_name f) /\ opt_safe (cf_file_name f) /\
  opt_safe (cf_fingerprint f).
(** "unset" (all ones) stays unset *)
Definition clip_address (z : Z) : Z := if z =? ulong_max then z else clip64 z.
Definition core_frame_as_read (f : core_frame) : core_frame :=
  mk_core_frame (clip_address (cf_address f)) (cf_build_id f) (clip_address (cf_build_id_offset f))
    (cf_function_name f) (cf_file_name f) (cf_fingerprint f)
    (match cf_fingerprint f with Some _ => cf_fingerprint_hashed f | None => true end).
(** A frame nothing is lost of. *)
Definition core_frame_ok (f : core_frame) : Prop :=
  (0 <= cf_address f < 2 ^ 63 \/ cf_address f = ulong_max) /\
  (0 <= cf_build_id_offset f < 2 ^ 63 \/ cf_build_id_offset f = ulong_max) /\
  (cf_fingerprint f = None -> cf_fingerprint_hashed f = true) /\
  core_frame_safe f.
Definition core_frames (s : core_stacktrace) : list core_frame := concat (map ct_frames (cs_threads s)).
Definition core_range (s : core_stacktrace) : Prop := u16 (cs_signal s) /\ Forall core_frame_range (core_frames s).
Definition core_safe (s : core_stacktrace) : Prop := opt_safe (cs_executable s) /\ Forall core_frame_safe (core_frames s).
(** The thread written as crash thread, if it has frames. *)
Definition core_crash_as_read (s : core_stacktrace) : option nat :=
  let i := match cs_crash_thread s with Some i => i | None => O end in
  match nth_error (cs_threads s) i with
  | Some t => match ct_frames t with [] => None | _ => Some i end
  | None => None
  end.
Definition core_as_read (s : core_stacktrace) : core_stacktrace :=
  mk_core_stacktrace (cs_signal s) (cs_executable s) (core_crash_as_read s)
    (map (fun t => mk_core_thread (map core_frame_as_read (ct_frames t))) (cs_threads s))
    (cs_only_crash_thread s).
Definition core_ok (s : core_stacktrace) : Prop :=
  u16 (cs_signal s) /\ opt_safe (cs_executable s) /\ Forall core_frame_ok (core_frames s) /\
  cs_threads s <> [] /\
  (exists i t, cs_crash_thread s = Some i /\ nth_error (cs_threads s) i = Some t /\ ct_frames t <> []).

(** ** Python *)
Definition python_frame_empty (f : python_frame) : Prop :=
  pf_file_name f = None /\ pf_file_line f = 0 /\ pf_function_name f = None /\ pf_line_contents f = None.
Definition python_frame_safe (f : python_frame) : Prop :=
  opt_safe (pf_file_name f) /\ opt_safe (pf_function_name f) /\ opt_safe (pf_line_contents f).
(** the flags "special" are carried by the names *)
Definition with_name (o : option str) (b : bool) : bool := match o with Some _ => b | None => false end.
Definition python_frame_as_read (f : python_frame) : python_frame :=
  mk_python_frame (with_name (pf_file_name f) (pf_special_file f)) (pf_file_name f) (clip32 (pf_file_line f))
    (with_name (pf_function_name f) (pf_special_function f)) (pf_function_name f) (pf_line_contents f).
Definition python_as_read (s : python_stacktrace) : python_stacktrace :=
  mk_python_stacktrace (ps_exception_name s) (map python_frame_as_read (ps_frames s)).
Definition python_range (s : python_stacktrace) : Prop := Forall (fun f => u32 (pf_file_line f)) (ps_frames s).
Definition python_frame_ok (f : python_frame) : Prop :=
  0 <= pf_file_line f < 2 ^ 31 /\ ~ python_frame_empty f /\ python_frame_safe f /\
  (pf_file_name f = None -> pf_special_file f = false) /\
  (pf_function_name f = None -> pf_special_function f = false).
Definition python_ok (s : python_stacktrace) : Prop :=
  opt_safe (ps_exception_name s) /\ Forall python_frame_ok (ps_frames s).

(** ** Ruby *)
Definition ruby_frame_empty (f : ruby_frame) : Prop :=
  rf_file_name f = None /\ rf_file_line f = 0 /\ rf_function_name f = None /\
  rf_block_level f = 0 /\ rf_rescue_level f = 0.
Definition ruby_frame_safe (f : ruby_frame) : Prop := opt_safe (rf_file_name f) /\ opt_safe (rf_function_name f).
Definition ruby_frame_as_read (f : ruby_frame) : ruby_frame :=
  mk_ruby_frame (rf_file_name f) (clip32 (rf_file_line f)) (with_name (rf_function_name f) (rf_special_function f))
    (rf_function_name f) (clip32 (rf_block_level f)) (clip32 (rf_rescue_level f)).
Definition ruby_as_read (s : ruby_stacktrace) : ruby_stacktrace :=
  mk_ruby_stacktrace (rs_exception_name s) (map ruby_frame_as_read (rs_frames s)).
Definition ruby_range (s : ruby_stacktrace) : Prop :=
  Forall (fun f => u32 (rf_file_line f) /\ u32 (rf_block_level f) /\ u32 (rf_rescue_level f)) (rs_frames s).
Definition ruby_frame_ok (f : ruby_frame) : Prop :=
  0 <= rf_file_line f < 2 ^ 31 /\ 0 <= rf_block_level f < 2 ^ 31 /\ 0 <= rf_rescue_level f < 2 ^ 31 /\
  ~ ruby_frame_empty f /\ ruby_frame_safe f /\
  (rf_function_name f = None -> rf_special_function f = false).
Definition ruby_ok (s : ruby_stacktrace) : Prop :=
  opt_safe (rs_exception_name s) /\ Forall ruby_frame_ok (rs_frames s).

(** ** JavaScript *)
Definition js_frame_empty (f : js_frame) : Prop :=
  jf_file_name f = None /\ jf_file_line f = 0 /\ jf_line_column f = 0 /\ jf_function_name f = None.
Definition js_frame_safe (f : js_frame) : Prop := opt_safe (jf_file_name f) /\ opt_safe (jf_function_name f).
Definition js_frame_as_read (f : js_frame) : js_frame :=
  mk_js_frame (jf_file_name f) (clip32 (jf_file_line f)) (clip32 (jf_line_column f)) (jf_function_name f).
(** The platform word holds the runtime in the upper 28 bits and the engine in the lower 4.  The
    known engine and runtime both have code 1; what is not known is written as such and read
    as 0; the reader puts the engine where the runtime belongs and vice versa. *)
Definition known1 (z : Z) : Z := if z =? 1 then 1 else 0.
Definition js_platform_as_read (p : Z) : Z :=
  if p =? 0 then 0 else 16 * known1 (p mod 16) + known1 (p / 16).
Definition js_as_read (s : js_stacktrace) : js_stacktrace :=
  mk_js_stacktrace (js_exception_name s) (map js_frame_as_read (js_frames s)) (js_platform_as_read (js_platform s)).
Definition js_range (s : js_stacktrace) : Prop :=
  u32 (js_platform s) /\ Forall (fun f => u32 (jf_file_line f) /\ u32 (jf_line_column f)) (js_frames s).
Definition js_frame_ok (f : js_frame) : Prop :=
  0 <= jf_file_line f < 2 ^ 31 /\ 0 <= jf_line_column f < 2 ^ 31 /\ ~ js_frame_empty f /\ js_frame_safe f.
(** unknown platform, or engine V8 with runtime Node.js *)
Definition js_ok (s : js_stacktrace) : Prop :=
  opt_safe (js_exception_name s) /\ Forall js_frame_ok (js_frames s) /\
  (js_platform s = 0 \/ js_platform s = 17).

(** ** Java *)
Definition java_frame_safe (f : java_frame) : Prop :=
  opt_safe (vf_name f) /\ opt_safe (vf_file_name f) /\ opt_safe (vf_class_path f) /\ opt_safe (vf_message f).
Definition java_frame_as_read (f : java_frame) : java_frame :=
  mk_java_frame (vf_name f) (vf_file_name f)
    (match vf_file_name f with Some _ => clip32 (vf_file_line f) | None => 0 end)
    (vf_class_path f) (vf_is_native f) (vf_is_exception f) (vf_message f).
Definition java_as_read (s : java_stacktrace) : java_stacktrace :=
  mk_java_stacktrace (map (fun t => mk_java_thread (vt_name t) (map java_frame_as_read (vt_frames t))) (vs_threads s)).
Definition java_frames (s : java_stacktrace) : list java_frame := concat (map vt_frames (vs_threads s)).
Definition java_range (s : java_stacktrace) : Prop := Forall (fun f => u32 (vf_file_line f)) (java_frames s).
Definition java_safe (s : java_stacktrace) : Prop :=
  Forall (fun t => opt_safe (vt_name t)) (vs_threads s) /\ Forall java_frame_safe (java_frames s).
Definition java_frame_ok (f : java_frame) : Prop :=
  0 <= vf_file_line f < 2 ^ 31 /\ (vf_file_name f = None -> vf_file_line f = 0).
Definition java_ok (s : java_stacktrace) : Prop := java_safe s /\ Forall java_frame_ok (java_frames s).

(** ** Kernel oops *)
Definition koops_frame_safe (f : koops_frame) : Prop :=
  opt_safe (kf_function_name f) /\ opt_safe (kf_module_name f) /\ opt_safe (kf_from_function_name f) /\
  opt_safe (kf_from_module_name f) /\ opt_safe (kf_special_stack f).
Definition koops_frame_range (f : koops_frame) : Prop :=
  u64 (kf_address f) /\ u64 (kf_function_offset f) /\ u64 (kf_function_length f) /\
  u64 (kf_from_address f) /\ u64 (kf_from_function_offset f) /\ u64 (kf_from_function_length f).
Definition koops_frame_as_read (f : koops_frame) : koops_frame :=
  mk_koops_frame (clip64 (kf_address f)) (kf_reliable f) (kf_function_name f) (clip64 (kf_function_offset f))
    (clip64 (kf_function_length f)) (kf_module_name f) (clip64 (kf_from_address f)) (kf_from_function_name f)
    (clip64 (kf_from_function_offset f)) (clip64 (kf_from_function_length f)) (kf_from_module_name f)
    (kf_special_stack f).
Definition koops_safe (s : koops_stacktrace) : Prop :=
  opt_safe (ks_version s) /\ opt_safe (ks_raw_oops s) /\
  (match ks_modules s with Some l => Forall json_safe l | None => True end) /\
  Forall koops_frame_safe (ks_frames s).
Definition koops_range (s : koops_stacktrace) : Prop :=
  length (ks_taint s) = 16%nat /\ Forall koops_frame_range (ks_frames s).
Definition koops_as_read (s : koops_stacktrace) : koops_stacktrace :=
  mk_koops_stacktrace (ks_version s) (ks_taint s) (ks_modules s) (ks_raw_oops s)
    (map koops_frame_as_read (ks_frames s)) None.
Definition koops_modules_fit (s : koops_stacktrace) : Prop :=
  match ks_modules s with Some l => (length l <= 127)%nat | None => True end.
Definition below63 (z : Z) : Prop := 0 <= z < 2 ^ 63.
Definition koops_frame_ok (f : koops_frame) : Prop :=
  below63 (kf_address f) /\ below63 (kf_function_offset f) /\ below63 (kf_function_length f) /\
  below63 (kf_from_address f) /\ below63 (kf_from_function_offset f) /\ below63 (kf_from_function_length f) /\
  koops_frame_safe f.
Definition koops_ok (s : koops_stacktrace) : Prop :=
  length (ks_taint s) = 16%nat /\ koops_safe s /\ koops_modules_fit s /\
  Forall koops_frame_ok (ks_frames s) /\ ks_reason s = None.

(** ** Readers: what each field must be, given the members of the object *)
Definition reads_string (o : list (str * json)) (k : str) (r : option str) : Prop :=
  (jget k o = None /\ r = None) \/ (exists s, jget k o = Some (JStr s) /\ r = Some s).
Definition reads_bool (o : list (str * json)) (k : str) (dflt r : bool) : Prop :=
  (jget k o = None /\ r = dflt) \/ jget k o = Some (JBool r).
Definition clip_between (lo hi z : Z) : Z := if z <? lo then lo else if hi <? z then hi else z.
Definition reads_u64 (o : list (str * json)) (k : str) (dflt r : Z) : Prop :=
  (jget k o = None /\ r = dflt) \/
  (exists z, jget k o = Some (JInt z) /\ r = clip_between (- 2 ^ 63) (2 ^ 63 - 1) z mod two64).
Definition reads_u32 (o : list (str * json)) (k : str) (dflt r : Z) : Prop :=
  (jget k o = None /\ r = dflt) \/
  (exists z, jget k o = Some (JInt z) /\ r = clip_between (- 2 ^ 31) (2 ^ 31 - 1) z mod two32).
Definition reads_u16 (o : list (str * json)) (k : str) (dflt r : Z) : Prop :=
  (jget k o = None /\ r = dflt) \/
  (exists z, jget k o = Some (JInt z) /\ r = clip_between (- 2 ^ 31) (2 ^ 31 - 1) z mod two16).
Definition reads_list {A} (o : list (str * json)) (k : str) (item : json -> A -> Prop) (r : list A) : Prop :=
  (jget k o = None /\ r = []) \/ (exists l, jget k o = Some (JArr l) /\ Forall2 item l r).
(** a name under one of two keys; the first key has precedence, the second one sets the flag *)
Definition reads_name (o : list (str * json)) (k special : str) (r : option str) (flag : bool) : Prop :=
  (exists s, jget k o = Some (JStr s) /\ r = Some s /\ flag = false) \/
  (jget k o = None /\ exists s, jget special o = Some (JStr s) /\ r = Some s /\ flag = true) \/
  (jget k o = None /\ jget special o = None /\ r = None /\ flag = false).

Definition reads_core_frame (v : json) (f : core_frame) : Prop :=
  exists o, v = JObj o /\
    reads_u64 o (L "address") ulong_max (cf_address f) /\ reads_string o (L "build_id") (cf_build_id f) /\
    reads_u64 o (L "build_id_offset") ulong_max (cf_build_id_offset f) /\
    reads_string o (L "function_name") (cf_function_name f) /\ reads_string o (L "file_name") (cf_file_name f) /\
    reads_string o (L "fingerprint") (cf_fingerprint f) /\
    reads_bool o (L "fingerprint_hashed") true (cf_fingerprint_hashed f).
Definition reads_core_thread (v : json) (t : core_thread) : Prop :=
  exists o, v = JObj o /\ reads_list o (L "frames") reads_core_frame (ct_frames t).
(** the crash thread is the last one marked *)
Definition marked (v : json) : option bool :=
  match v with
  | JObj o => match jget (L "crash_thread") o with None => Some false | Some (JBool b) => Some b | _ => None end
  | _ => None
  end.
Definition reads_core (v : json) (s : core_stacktrace) : Prop :=
  exists o, v = JObj o /\
    reads_u16 o (L "signal") 0 (cs_signal s) /\ reads_string o (L "executable") (cs_executable s) /\
    reads_bool o (L "only_crash_thread") false (cs_only_crash_thread s) /\
    ((jget (L "stacktrace") o = None /\ cs_threads s = [] /\ cs_crash_thread s = None) \/
     exists l, jget (L "stacktrace") o = Some (JArr l) /\ Forall2 reads_core_thread l (cs_threads s) /\
       Forall (fun j => marked j <> None) l /\
       match cs_crash_thread s with
       | None => Forall (fun j => marked j = Some false) l
       | Some i => (exists j, nth_error l i = Some j /\ marked j = Some true) /\
                   forall i' j, (i < i')%nat -> nth_error l i' = Some j -> marked j = Some false
       end).

Definition reads_python_frame (v : json) (f : python_frame) : Prop :=
  exists o, v = JObj o /\
    reads_name o (L "file_name") (L "special_file") (pf_file_name f) (pf_special_file f) /\
    reads_name o (L "function_name") (L "special_function") (pf_function_name f) (pf_special_function f) /\
    reads_string o (L "line_contents") (pf_line_contents f) /\ reads_u32 o (L "file_line") 0 (pf_file_line f).
Definition reads_python (v : json) (s : python_stacktrace) : Prop :=
  exists o, v = JObj o /\ reads_string o (L "exception_name") (ps_exception_name s) /\
    reads_list o (L "stacktrace") reads_python_frame (ps_frames s).

Definition reads_ruby_frame (v : json) (f : ruby_frame) : Prop :=
  exists o, v = JObj o /\ reads_string o (L "file_name") (rf_file_name f) /\
    reads_name o (L "function_name") (L "special_function") (rf_function_name f) (rf_special_function f) /\
    reads_u32 o (L "file_line") 0 (rf_file_line f) /\ reads_u32 o (L "block_level") 0 (rf_block_level f) /\
    reads_u32 o (L "rescue_level") 0 (rf_rescue_level f).
Definition reads_ruby (v : json) (s : ruby_stacktrace) : Prop :=
  exists o, v = JObj o /\ reads_string o (L "exception_name") (rs_exception_name s) /\
    reads_list o (L "stacktrace") reads_ruby_frame (rs_frames s).

Definition reads_js_frame (v : json) (f : js_frame) : Prop :=
  exists o, v = JObj o /\ reads_string o (L "file_name") (jf_file_name f) /\
    reads_string o (L "function_name") (jf_function_name f) /\
    reads_u32 o (L "file_line") 0 (jf_file_line f) /\ reads_u32 o (L "line_column") 0 (jf_line_column f).
Definition reads_js (v : json) (s : js_stacktrace) : Prop :=
  exists o, v = JObj o /\ reads_string o (L "exception_name") (js_exception_name s) /\
    reads_list o (L "stacktrace") reads_js_frame (js_frames s) /\
    ((jget (L "platform") o = None /\ js_platform s = 0) \/
     exists p e r, jget (L "platform") o = Some (JObj p) /\
       jget (L "engine") p = Some (JStr e) /\ jget (L "runtime") p = Some (JStr r) /\
       (e = L "V8" \/ e = L "<unknown>") /\ (r = L "Node.js" \/ r = L "<unknown>") /\
       js_platform s = (if str_eqb e (L "V8") then 16 else 0) + (if str_eqb r (L "Node.js") then 1 else 0)).

Definition reads_java_frame (v : json) (f : java_frame) : Prop :=
  exists o, v = JObj o /\ reads_string o (L "name") (vf_name f) /\ reads_string o (L "file_name") (vf_file_name f) /\
    reads_u32 o (L "file_line") 0 (vf_file_line f) /\ reads_string o (L "class_path") (vf_class_path f) /\
    reads_bool o (L "is_native") false (vf_is_native f) /\
    reads_bool o (L "is_exception") false (vf_is_exception f) /\ reads_string o (L "message") (vf_message f).
Definition reads_java_thread (v : json) (t : java_thread) : Prop :=
  exists o, v = JObj o /\ reads_string o (L "name") (vt_name t) /\
    reads_list o (L "frames") reads_java_frame (vt_frames t).
Definition reads_java (v : json) (s : java_stacktrace) : Prop :=
  exists o, v = JObj o /\ reads_list o (L "threads") reads_java_thread (vs_threads s).

Definition reads_koops_frame (v : json) (f : koops_frame) : Prop :=
  exists o, v = JObj o /\
    reads_u64 o (L "address") 0 (kf_address f) /\ reads_bool o (L "reliable") false (kf_reliable f) /\
    reads_string o (L "function_name") (kf_function_name f) /\
    reads_u64 o (L "function_offset") 0 (kf_function_offset f) /\
    reads_u64 o (L "function_length") 0 (kf_function_length f) /\
    reads_string o (L "module_name") (kf_module_name f) /\
    reads_u64 o (L "from_address") 0 (kf_from_address f) /\
    reads_string o (L "from_function_name") (kf_from_function_name f) /\
    reads_u64 o (L "from_function_offset") 0 (kf_from_function_offset f) /\
    reads_u64 o (L "from_function_length") 0 (kf_from_function_length f) /\
    reads_string o (L "from_module_name") (kf_from_module_name f) /\
    reads_string o (L "special_stack") (kf_special_stack f).
Definition reads_koops (v : json) (s : koops_stacktrace) : Prop :=
  exists o, v = JObj o /\ reads_string o (L "version") (ks_version s) /\
    reads_string o (L "raw_oops") (ks_raw_oops s) /\
    ((jget (L "taint_flags") o = None /\ ks_taint s = repeat false 16) \/
     exists l, jget (L "taint_flags") o = Some (JArr (map JStr l)) /\
       ks_taint s = map (fun f => existsb (str_eqb (snd f)) l) taint_flags) /\
    ((jget (L "modules") o = None /\ ks_modules s = None) \/
     exists l, jget (L "modules") o = Some (JArr (map JStr l)) /\ ks_modules s = Some l) /\
    reads_list o (L "frames") reads_koops_frame (ks_frames s) /\ ks_reason s = None.
