(** * Which frame, thread or stack trace a structure in memory is, and when two frames are equal. *)
From Verif Require Import Base Types TextModel HeapModel HeapSpec PyModel PySpec PyAttrModel PyAttrSpec CmpSpec PyBaseModel.
Open Scope Z_scope.

(** The members of a structure, by name. *)
Definition is_number (k : kind) (v : value) (m : string) (z : Z) : Prop := match v with Val scal _ _ _ => number_of k scal (L m) z end.
Definition is_flag (k : kind) (v : value) (m : string) (b : bool) : Prop := exists z, is_number k v m z /\ (b = true <-> z <> 0).
Definition is_text (k : kind) (v : value) (m : string) (s : option str) : Prop := match v with Val _ ss _ _ => string_of k ss (L m) s end.
(** [is_frame k v f]: the structure [v], of type [k], is the frame [f]. *)
Definition is_frame (k : kind) (v : value) (f : frame) : Prop :=
  match f with
  | FCore f => k = KCoreFrame /\ is_number k v "address" (cf_address f) /\ is_text k v "build_id" (cf_build_id f) /\
      is_number k v "build_id_offset" (cf_build_id_offset f) /\ is_text k v "function_name" (cf_function_name f) /\
      is_text k v "file_name" (cf_file_name f) /\ is_text k v "fingerprint" (cf_fingerprint f) /\
      is_flag k v "fingerprint_hashed" (cf_fingerprint_hashed f)
  | FPython f => k = KPythonFrame /\ is_flag k v "special_file" (pf_special_file f) /\ is_text k v "file_name" (pf_file_name f) /\
      is_number k v "file_line" (pf_file_line f) /\ is_flag k v "special_function" (pf_special_function f) /\
      is_text k v "function_name" (pf_function_name f) /\ is_text k v "line_contents" (pf_line_contents f)
  | FKoops f => k = KKoopsFrame /\ is_number k v "address" (kf_address f) /\ is_flag k v "reliable" (kf_reliable f) /\
      is_text k v "function_name" (kf_function_name f) /\ is_number k v "function_offset" (kf_function_offset f) /\
      is_number k v "function_length" (kf_function_length f) /\ is_text k v "module_name" (kf_module_name f) /\
      is_number k v "from_address" (kf_from_address f) /\ is_text k v "from_function_name" (kf_from_function_name f) /\
      is_number k v "from_function_offset" (kf_from_function_offset f) /\ is_number k v "from_function_length" (kf_from_function_length f) /\
      is_text k v "from_module_name" (kf_from_module_name f) /\ is_text k v "special_stack" (kf_special_stack f)
  | FJava f => k = KJavaFrame /\ is_text k v "name" (vf_name f) /\ is_text k v "file_name" (vf_file_name f) /\
      is_number k v "file_line" (vf_file_line f) /\ is_text k v "class_path" (vf_class_path f) /\ is_flag k v "is_native" (vf_is_native f) /\
      is_flag k v "is_exception" (vf_is_exception f) /\ is_text k v "message" (vf_message f)
  | FGdb f => k = KGdbFrame /\ is_text k v "function_name" (gf_function_name f) /\ is_text k v "function_type" (gf_function_type f) /\
      is_number k v "number" (gf_number f) /\ is_text k v "source_file" (gf_source_file f) /\ is_number k v "source_line" (gf_source_line f) /\
      is_flag k v "signal_handler_called" (gf_signal_handler_called f) /\ is_number k v "address" (gf_address f) /\
      is_text k v "library_name" (gf_library_name f)
  | FRuby f => k = KRubyFrame /\ is_text k v "file_name" (rf_file_name f) /\ is_number k v "file_line" (rf_file_line f) /\
      is_flag k v "special_function" (rf_special_function f) /\ is_text k v "function_name" (rf_function_name f) /\
      is_number k v "block_level" (rf_block_level f) /\ is_number k v "rescue_level" (rf_rescue_level f)
  | FJs f => k = KJsFrame /\ is_text k v "file_name" (jf_file_name f) /\ is_number k v "file_line" (jf_file_line f) /\
      is_number k v "line_column" (jf_line_column f) /\ is_text k v "function_name" (jf_function_name f)
  end.
(** The lists of structures it owns. *)
Definition kids (v : value) : list (list value) := match v with Val _ _ _ kids => kids end.
Definition array (v : value) : option (list str) := match v with Val _ _ arr _ => arr end.
Definition numbers (v : value) : list Z := match v with Val scal _ _ _ => scal end.
Definition has_frames (fk : kind) (v : value) (fs : list frame) : Prop := exists vs, kids v = [vs] /\ Forall2 (is_frame fk) vs fs.
(** A thread, or single-threaded stack trace; the taint flags of a kernel oops and the platform of a JavaScript stack trace
    can be anything. *)
Definition is_thread (k : kind) (v : value) (t : thread) : Prop :=
  match t with
  | TCore t => k = KCoreThread /\ has_frames KCoreFrame v (map FCore (ct_frames t))
  | TJava t => k = KJavaThread /\ is_text k v "name" (vt_name t) /\ has_frames KJavaFrame v (map FJava (vt_frames t))
  | TGdb t => k = KGdbThread /\ is_number k v "number" (gt_number t) /\ is_number k v "tid" (gt_tid t) /\
      has_frames KGdbFrame v (map FGdb (gt_frames t))
  | TPython t => k = KPythonStack /\ is_text k v "exception_name" (ps_exception_name t) /\ has_frames KPythonFrame v (map FPython (ps_frames t))
  | TRuby t => k = KRubyStack /\ is_text k v "exception_name" (rs_exception_name t) /\ has_frames KRubyFrame v (map FRuby (rs_frames t))
  | TJs t => k = KJsStack /\ is_text k v "exception_name" (js_exception_name t) /\ has_frames KJsFrame v (map FJs (js_frames t))
  | TKoops t => k = KKoopsStack /\ is_text k v "version" (ks_version t) /\ is_text k v "raw_oops" (ks_raw_oops t) /\
      is_text k v "reason" (ks_reason t) /\ array v = ks_modules t /\ has_frames KKoopsFrame v (map FKoops (ks_frames t))
  end.
Definition is_lib (v : value) (l : gdb_sharedlib) : Prop :=
  is_number KGdbLib v "from" (gl_from l) /\ is_number KGdbLib v "to" (gl_to l) /\ is_number KGdbLib v "symbols" (gl_symbols l) /\
  is_text KGdbLib v "soname" (gl_soname l).
(** A stack trace; which thread of a core stack trace is known to have crashed is not part of the tree. *)
Definition is_stack (k : kind) (v : value) (s : stacktrace) : Prop :=
  match s with
  | SCore s => k = KCoreStack /\ is_number k v "signal" (cs_signal s) /\ is_text k v "executable" (cs_executable s) /\
      is_flag k v "only_crash_thread" (cs_only_crash_thread s) /\
      exists ts, kids v = [ts] /\ Forall2 (is_thread KCoreThread) ts (map TCore (cs_threads s))
  | SJava s => k = KJavaStack /\ exists ts, kids v = [ts] /\ Forall2 (is_thread KJavaThread) ts (map TJava (vs_threads s))
  | SGdb s => k = KGdbStack /\ numbers v = [gs_crash_tid s] /\
      exists cs ts ls, kids v = [cs; ts; ls] /\ Forall2 (is_frame KGdbFrame) cs (match gs_crash s with Some f => [FGdb f] | None => [] end) /\
        Forall2 (is_thread KGdbThread) ts (map TGdb (gs_threads s)) /\ Forall2 is_lib ls (gs_libs s)
  | SPython s => is_thread k v (TPython s) | SRuby s => is_thread k v (TRuby s) | SJs s => is_thread k v (TJs s)
  | SKoops s => is_thread k v (TKoops s)
  end.

(** Two frames of one type are equal: they agree in what the type compares (C30). *)
Definition frames_agree (f g : frame) : Prop :=
  match f, g with
  | FCore f, FCore g => cf_build_id f = cf_build_id g /\ cf_build_id_offset f = cf_build_id_offset g /\
      cf_function_name f = cf_function_name g /\ cf_file_name f = cf_file_name g /\ cf_fingerprint f = cf_fingerprint g
  | FPython f, FPython g => f = g
  | FKoops f, FKoops g => f = g
  | FRuby f, FRuby g => f = g
  | FJs f, FJs g => f = g
  | FJava f, FJava g => vf_is_exception f = vf_is_exception g /\ vf_name f = vf_name g /\
      (vf_is_exception f = false -> vf_class_path f = vf_class_path g /\ vf_file_name f = vf_file_name g /\
        vf_is_native f = vf_is_native g /\ vf_file_line f = vf_file_line g)
  | FGdb f, FGdb g => gf_signal_handler_called f = gf_signal_handler_called g /\
      (gf_signal_handler_called f = false -> gf_function_name f = gf_function_name g /\ gf_function_type f = gf_function_type g /\
        gf_source_file f = gf_source_file g /\ gf_source_line f = gf_source_line g /\ gf_library_name f = gf_library_name g)
  | _, _ => False
  end.
(** Numbers whose difference is a C int: lines, offsets, levels and lengths below 2^31 (or the line number unknown). *)
Definition in_range (f : frame) : Prop :=
  match f with
  | FCore f => small (cf_build_id_offset f)
  | FPython f => small (pf_file_line f)
  | FKoops f => small (kf_address f) /\ small (kf_function_offset f) /\ small (kf_function_length f) /\ small (kf_from_address f) /\
                small (kf_from_function_offset f) /\ small (kf_from_function_length f)
  | FJava f => small (vf_file_line f)
  | FGdb f => small_or_unknown (gf_source_line f) /\ small (gf_number f)
  | FRuby f => small (rf_file_line f) /\ small (rf_block_level f) /\ small (rf_rescue_level f)
  | FJs f => small (jf_file_line f) /\ small (jf_line_column f)
  end.
(** Threads: core threads by their frames, gdb threads by number and frames, numbers of frames included. *)
Definition threads_agree (t u : thread) : Prop :=
  match t, u with
  | TCore t, TCore u => Forall2 (fun f g => frames_agree (FCore f) (FCore g)) (ct_frames t) (ct_frames u)
  | TGdb t, TGdb u => gt_number t = gt_number u /\
      Forall2 (fun f g => frames_agree (FGdb f) (FGdb g) /\ (gf_signal_handler_called f = false -> gf_number f = gf_number g)) (gt_frames t) (gt_frames u)
  | _, _ => False
  end.
Definition thread_in_range (t : thread) : Prop :=
  Forall in_range (sr_thread_frames t) /\ match t with TGdb t => small_or_unknown (gt_number t) | _ => True end.

(** The object [r] of a frame; of a thread or single-threaded stack trace with a list of frame objects; what the structure
    is once the frames are linked is [e]. *)
Definition py_frame (os : objects) (h : heap) (r : ref) (k : kind) (n : option addr) (e : entry) (f : frame) : Prop :=
  (exists at_, alive os r (PyStruct k (e_addr e) at_)) /\ own h k n e /\ is_frame k (e_val e) f.
Definition py_thread_is (os : objects) (h : heap) (r : ref) (k : kind) (n : option addr) (e : entry) (es : list entry) (t : thread) : Prop :=
  exists fk l items at_, alive os r (PyStruct k (e_addr e) (Some l :: at_)) /\ py_list os l fk items es /\ unlinked_thread h k fk n e es /\
    separate (e_foot e) /\ is_thread k (e_val e) t.
(** A thread object whose list contains, after some frames, an object of another type. *)
Definition foreign (os : objects) (h : heap) (r : ref) (k : kind) (c : addr) (es : list entry) : Prop :=
  exists fk l good bad rest at_ scal ps p arr raw n, frame_kind k = Some fk /\
    alive os r (PyStruct k c (Some l :: at_)) /\ alive os l (PyList (good ++ bad :: rest)) /\
    Forall2 (fun r e => alive os r (PyStruct fk (e_addr e) [])) good es /\ wrong os bad fk /\
    nth_error h c = Some (CObj k scal ps [p] arr raw n) /\ Forall (fun e => exists n, own h fk n e) es /\ separate (c :: foot es).
(** A core or java stack trace with a list of threads. *)
Definition py_stack_is (os : objects) (h : heap) (r : ref) (k : kind) (n : option addr) (e : entry) (ts : list py_thread) (s : stacktrace) : Prop :=
  exists tk fk l at_, thread_type k = Some tk /\ frame_kind tk = Some fk /\ alive os r (PyStruct k (e_addr e) (Some l :: at_)) /\
    py_threads os l tk fk ts /\ unlinked_stack h k n e ts /\ separate (e_foot e) /\ is_stack k (e_val e) s.
(** The pointer to the crash thread of a core stack trace is that of the thread of [s], or NULL. *)
Definition crash_pointer (h : heap) (e : entry) (ts : list py_thread) (s : stacktrace) : Prop :=
  match s with
  | SCore s => exists scal ps ks arr x n, nth_error h (e_addr e) = Some (CObj KCoreStack scal ps ks arr [x] n) /\
      match cs_crash_thread s with
      | None => x = None
      | Some i => exists t, nth_error ts i = Some t /\ x = Some (e_addr (pt_entry t))
      end
  | _ => True
  end.
Definition py_gdb_is (os : objects) (h : heap) (r : ref) (n : option addr) (e : entry) (ts : list py_thread) (items : list ref) (libs : list entry)
    (s : gdb_stacktrace) : Prop :=
  exists lt ll at_, alive os r (PyStruct KGdbStack (e_addr e) (Some lt :: Some ll :: at_)) /\ py_threads os lt KGdbThread KGdbFrame ts /\
    py_list os ll KGdbLib items libs /\ unlinked_gdb h n e ts libs /\ separate (e_foot e) /\ is_stack KGdbStack (e_val e) (SGdb s).
(** Some object that is no structure of the given sort. *)
Definition other_object (of : kind -> Prop) (os : objects) (r : ref) : Prop :=
  exists b, alive os r b /\ forall k c at_, b = PyStruct k c at_ -> ~ of k.
Definition any_frame (k : kind) : Prop := In k [KCoreFrame; KPythonFrame; KKoopsFrame; KJavaFrame; KGdbFrame; KRubyFrame; KJsFrame].
Definition any_thread (k : kind) : Prop := In k [KCoreThread; KJavaThread; KGdbThread; KPythonStack; KKoopsStack; KRubyStack; KJsStack].
(** A C string as a Python string: decoded, or an exception if it is not UTF-8. *)
Definition gives_text (a : answer (list Z)) (s : str) : Prop :=
  (exists t, utf8 t s /\ a = Value t) \/ (a = Raise UnicodeDecodeError /\ forall t, ~ utf8 t s).
(** Whether an address is inside a library. *)
Definition contains (l : gdb_sharedlib) (address : Z) : Prop := gl_from l <= address <= gl_to l.
