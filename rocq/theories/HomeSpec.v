(** * Specification: the same crash of another user. *)
From Verif Require Import Base Types NormTables UtilsSpec RpmSpec ParseSpec JavaParseSpec TextModel.

Definition home (user rest : str) : str := L "/home/" ++ user ++ "/"%char :: rest.
(** The texts that normalization looks for in file names to recognise libraries and their source files. *)
Definition looked_for : list str :=
  concat (map snd removable_table) ++ concat (map snd above_table) ++ concat (map snd gdb_exit_table) ++ concat (map snd core_exit_table) ++
  arch_functions ++ [L "/sysdeps/"; L "/sysdeps"; L "libc.so"].
Definition found_in (pat s : str) : Prop := exists a b, s = a ++ pat ++ b.
(** A user whose name is not taken for the name of a library. *)
Definition ordinary (user : str) : Prop :=
  ~ In "/"%char user /\ forall pat, In pat looked_for -> pat <> [] -> ~ found_in pat (home user []).
(** The same path in the home directory of another user. *)
Definition path_alike (p q : option str) : Prop :=
  p = q \/ exists u v rest, ordinary u /\ ordinary v /\ p = Some (home u rest) /\ q = Some (home v rest).
(** The same frame in a program or library of another user. *)
Definition core_alike (f g : core_frame) : Prop :=
  cf_address g = cf_address f /\ cf_build_id g = cf_build_id f /\ cf_build_id_offset g = cf_build_id_offset f /\
  cf_function_name g = cf_function_name f /\ cf_fingerprint g = cf_fingerprint f /\ cf_fingerprint_hashed g = cf_fingerprint_hashed f /\
  path_alike (cf_file_name f) (cf_file_name g).
Definition cores_alike (s s' : core_stacktrace) : Prop :=
  cs_signal s' = cs_signal s /\ cs_crash_thread s' = cs_crash_thread s /\ path_alike (cs_executable s) (cs_executable s') /\
  cs_only_crash_thread s' = cs_only_crash_thread s /\
  Forall2 (fun t u => Forall2 core_alike (ct_frames t) (ct_frames u)) (cs_threads s) (cs_threads s').
Definition gdb_alike (f g : gdb_frame) : Prop :=
  gf_function_name g = gf_function_name f /\ gf_function_type g = gf_function_type f /\ gf_number g = gf_number f /\
  gf_source_line g = gf_source_line f /\ gf_signal_handler_called g = gf_signal_handler_called f /\ gf_address g = gf_address f /\
  gf_library_name g = gf_library_name f /\ path_alike (gf_source_file f) (gf_source_file g).
(** A line of a Ruby backtrace, and the same line for another user. *)
Definition ruby_line_alike (l l' : str) : Prop :=
  l = l' \/ exists u v rest, l = home u rest /\ l' = home v rest /\ without (L "/`") u /\ without (L "/`") v.
(** The text of a frame in a Python traceback. *)
Definition python_line_alike (s s' : str) : Prop :=
  exists u v rest, s = L "  File """ ++ home u rest /\ s' = L "  File """ ++ home v rest /\ without ["/"%char; dquote] u /\ without ["/"%char; dquote] v.
(** The text of a V8 frame: the place alone, or in parentheses after the function. *)
Definition js_line_alike (s s' : str) : Prop :=
  exists lead u v rest, s = lead ++ L "at " ++ home u rest /\ s' = lead ++ L "at " ++ home v rest /\ Forall (fun c => c = sp) lead /\
    without ["/"%char; nl] u /\ without ["/"%char; nl] v.
Definition js_call_alike (s s' : str) : Prop :=
  exists lead name ignored u v rest, s = lead ++ L "at " ++ name ++ L " " ++ ignored ++ L "(" ++ home u rest /\
    s' = lead ++ L "at " ++ name ++ L " " ++ ignored ++ L "(" ++ home v rest /\ Forall (fun c => c = sp) lead /\
    name <> [] /\ without [sp; nl] name /\ without ["("%char; nl] ignored /\ without ["/"%char; nl] u /\ without ["/"%char; nl] v.
(** A line of a Java exception: the path of the class file or archive is at its end. *)
Definition java_line_alike (s s' : str) : Prop :=
  exists lead gap name source more scheme u v rest,
    let upto := lead ++ L "at" ++ gap ++ name ++ L "(" ++ source ++ L ")" ++ more ++ L "[" ++ scheme in
    s = upto ++ home u rest /\ s' = upto ++ home v rest /\ (scheme = L "file:" \/ scheme = L "jar:file:") /\
    Forall space_char lead /\ Forall space_char gap /\ name <> [] /\ not_blank_first name /\ without ["("%char; "["%char; nl] name /\
    without [")"%char; "["%char; nl] source /\ without ["["%char; nl] more /\ without ["/"%char; "!"%char; "]"%char; nl] u /\ without ["/"%char; "!"%char; "]"%char; nl] v.
