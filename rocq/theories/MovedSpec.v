(** * Specification: the same crash at other addresses. *)
From Verif Require Import Base Types TextModel.
Open Scope Z_scope.

(** Both are zero or neither is. *)
Definition zero_alike (a b : Z) : Prop := a = 0 <-> b = 0.
(** [g] is [f] with another address.  A frame that has nothing but its address keeps it. *)
Definition core_moved (f g : core_frame) : Prop :=
  (cf_build_id g = cf_build_id f /\ cf_build_id_offset g = cf_build_id_offset f /\ cf_function_name g = cf_function_name f /\
   cf_file_name g = cf_file_name f /\ cf_fingerprint g = cf_fingerprint f /\ cf_fingerprint_hashed g = cf_fingerprint_hashed f) /\
  zero_alike (cf_address f) (cf_address g) /\
  (cf_build_id f <> None \/ cf_function_name f <> None \/ cf_fingerprint f <> None \/ cf_address g = cf_address f).
Definition gdb_moved (f g : gdb_frame) : Prop :=
  (gf_function_name g = gf_function_name f /\ gf_function_type g = gf_function_type f /\ gf_number g = gf_number f /\
   gf_source_file g = gf_source_file f /\ gf_source_line g = gf_source_line f /\
   gf_signal_handler_called g = gf_signal_handler_called f /\ gf_library_name g = gf_library_name f) /\
  zero_alike (gf_address f) (gf_address g).
(** The kernel can be loaded at other addresses, too. *)
Definition koops_moved (f g : koops_frame) : Prop :=
  (kf_reliable g = kf_reliable f /\ kf_function_name g = kf_function_name f /\ kf_function_offset g = kf_function_offset f /\
   kf_function_length g = kf_function_length f /\ kf_module_name g = kf_module_name f /\
   kf_from_function_name g = kf_from_function_name f /\ kf_from_function_offset g = kf_from_function_offset f /\
   kf_from_function_length g = kf_from_function_length f /\ kf_from_module_name g = kf_from_module_name f /\
   kf_special_stack g = kf_special_stack f) /\
  (kf_function_name f <> None \/ kf_address g = kf_address f).
(** Frames of other types have no address. *)
Definition frame_moved (f g : frame) : Prop :=
  match f, g with
  | FCore f, FCore g => core_moved f g | FGdb f, FGdb g => gdb_moved f g | FKoops f, FKoops g => koops_moved f g
  | _, _ => f = g
  end.
Definition contains (hay needle : str) : Prop := exists a b, hay = a ++ needle ++ b.
(** What the kernel said, which may tell an address. *)
Definition said_moved (r r' : option str) : Prop :=
  r = r' \/ exists x y, r = Some x /\ r' = Some y /\
    (contains x (L "general protection fault: ") /\ contains y (L "general protection fault: ") \/
     contains x (L "kernel paging request at") /\ contains y (L "kernel paging request at") /\
     ~ contains x (L "general protection fault: ") /\ ~ contains y (L "general protection fault: ")).
(** Libraries moved along with the frames: the same ones cover the addresses of both. *)
Definition covers (l : gdb_sharedlib) (a : Z) : Prop := gl_from l <= a <= gl_to l.
Definition libs_moved (libs libs' : list gdb_sharedlib) (f g : gdb_frame) : Prop :=
  (gf_address f = ulong_max <-> gf_address g = ulong_max) /\
  Forall2 (fun l l' => gl_soname l = gl_soname l' /\ (covers l (gf_address f) <-> covers l' (gf_address g))) libs libs'.
Definition thread_moved (t u : thread) : Prop :=
  match t, u with
  | TCore t, TCore u => Forall2 core_moved (ct_frames t) (ct_frames u)
  | TGdb t, TGdb u => gt_number u = gt_number t /\ gt_tid u = gt_tid t /\ Forall2 gdb_moved (gt_frames t) (gt_frames u)
  | TKoops t, TKoops u => Forall2 koops_moved (ks_frames t) (ks_frames u) /\ said_moved (ks_reason t) (ks_reason u)
  | _, _ => t = u
  end.
Definition stacktrace_moved (s s' : stacktrace) : Prop :=
  match s, s' with
  | SCore s, SCore s' => cs_signal s' = cs_signal s /\ cs_executable s' = cs_executable s /\ cs_crash_thread s' = cs_crash_thread s /\
      Forall2 (fun t u => Forall2 core_moved (ct_frames t) (ct_frames u)) (cs_threads s) (cs_threads s')
  | SGdb s, SGdb s' => gs_crash_tid s' = gs_crash_tid s /\
      match gs_crash s, gs_crash s' with Some f, Some g => gdb_moved f g | None, None => True | _, _ => False end /\
      Forall2 (fun t u => gt_number u = gt_number t /\ gt_tid u = gt_tid t /\
                 Forall2 (fun f g => gdb_moved f g /\ libs_moved (gs_libs s) (gs_libs s') f g) (gt_frames t) (gt_frames u)) (gs_threads s) (gs_threads s') /\
      length (gs_libs s) = length (gs_libs s')
  | SKoops s, SKoops s' => Forall2 koops_moved (ks_frames s) (ks_frames s') /\ said_moved (ks_reason s) (ks_reason s')
  | _, _ => s = s'
  end.
