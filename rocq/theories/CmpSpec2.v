(** * Specification: when two frames of any types are equal. *)
From Verif Require Import Base Types CmpSpec.
Open Scope Z_scope.

(** Frames of one type with the same members.  The address of a core frame, the message and place of a Java exception,
    the number of a gdb frame and everything about a gdb signal handler do not count. *)
Definition equal_frames (f g : frame) : Prop :=
  match f, g with
  | FCore f, FCore g => cf_build_id f = cf_build_id g /\ cf_build_id_offset f = cf_build_id_offset g /\
      cf_function_name f = cf_function_name g /\ cf_file_name f = cf_file_name g /\ cf_fingerprint f = cf_fingerprint g
  | FPython f, FPython g => f = g
  | FKoops f, FKoops g => f = g
  | FRuby f, FRuby g => f = g
  | FJs f, FJs g => f = g
  | FJava f, FJava g => vf_is_exception f = vf_is_exception g /\ vf_name f = vf_name g /\
      (vf_is_exception f = false -> vf_class_path f = vf_class_path g /\ vf_file_name f = vf_file_name g /\
        vf_is_native f = vf_is_native g /\ vf_file_line f = vf_file_line g)
  | FGdb f, FGdb g => gf_signal_handler_called f = gf_signal_handler_called g /\
      (gf_signal_handler_called f = false -> gf_function_name f = gf_function_name g /\ gf_function_type f = gf_function_type g /\
        gf_source_file f = gf_source_file g /\ gf_source_line f = gf_source_line g /\ gf_library_name f = gf_library_name g)
  | _, _ => False
  end.
(** All numbers compared are below 2^31 (or the line number unknown). *)
Definition frame_small (f : frame) : Prop :=
  match f with
  | FCore f => small (cf_build_id_offset f)
  | FPython f => small (pf_file_line f)
  | FKoops f => small (kf_address f) /\ small (kf_function_offset f) /\ small (kf_function_length f) /\ small (kf_from_address f) /\
                small (kf_from_function_offset f) /\ small (kf_from_function_length f)
  | FJava f => small (vf_file_line f)
  | FGdb f => small_or_unknown (gf_source_line f) /\ small (gf_number f)
  | FRuby f => small (rf_file_line f) /\ small (rf_block_level f) /\ small (rf_rescue_level f)
  | FJs f => small (jf_file_line f) /\ small (jf_line_column f)
  end.
