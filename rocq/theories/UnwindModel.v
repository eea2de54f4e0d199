(** * Stack traces from core dumps and dying processes (lib/core_unwind.c, lib/core_unwind_elfutils.c,
      lib/core_unwind_libunwind.c).

    elfutils and libunwind are not part of the project: what they report about a core dump (modules, threads, frames,
    notes) are parameters the theorems quantify over.  The id of a thread is left out, as in Types.v. *)
From Verif Require Import Base Types UtilsModel LookupModel CrashModel.
Open Scope nat_scope.

(** ** Frames *)
(* A Dwfl_Module: dwfl_module_build_id (empty when it returns nothing), dwfl_module_info (module name, start, file
   name), dwfl_module_addrname *)
Record module := mk_module {
  mod_build_id : list ascii;
  mod_info : option (str * Z * option str);
  mod_addrname : Z -> option str }.
Section Process.
Variable addrmodule : Z -> option module.      (* dwfl_addrmodule *)
Variable cxa_demangle : str -> option str.     (* __cxa_demangle *)

(* lib/utils.c:712-728 sr_demangle_symbol *)
Definition sr_demangle_symbol (sym : str) : option str := if starts_with (L "_Z") sym then cxa_demangle sym else None.
(* lib/core_unwind.c:294-339 resolve_frame *)
Definition resolve_frame (ip : Z) (minus_one : bool) : core_frame :=
  let ip_adjusted := if minus_one then w64 (ip - 1) else ip in
  match addrmodule ip_adjusted with
  | None => mk_core_frame ip None ip None None None true
  | Some m =>
    let build_id := match mod_build_id m with [] => None | bits => Some (sr_bin2hex bits) end in
    let '(offset, file) := match mod_info m with
                           | Some (modname, start, filename) => (w64 (ip - start), Some (match filename with Some f => f | None => modname end))
                           | None => (ip, None)
                           end in
    let function := match mod_addrname m ip_adjusted with
                    | Some f => Some (match sr_demangle_symbol f with Some d => d | None => f end)
                    | None => None
                    end in
    mk_core_frame ip build_id offset function file None true
  end.

(** ** elfutils *)
(* One thread as dwfl_thread_getframes reports it: for each frame the result of dwfl_frame_pc; what it returns when no
   callback stopped it. *)
Record unwound := mk_unwound { u_frames : list (option (Z * bool)); u_ret : Z }.
(* lib/core_unwind_elfutils.c:57-86 frame_callback, called for every frame until it returns something else than
   DWARF_CB_OK (0): the frames appended and the return value of dwfl_thread_getframes; DWARF_CB_ABORT is 1,
   CB_STOP_UNWIND is 2 *)
Fixpoint getframes (frames : list (option (Z * bool))) (ret : Z) : list core_frame * Z :=
  match frames with
  | [] => ([], ret)
  | None :: _ => ([], 1%Z)
  | Some (pc, minus_one) :: r =>
    let f := resolve_frame pc minus_one in
    if opt_str_eqb (cf_function_name f) (Some (L "__libc_start_main")) then ([], 2%Z)
    else let '(fs, ret) := getframes r ret in (f :: fs, ret)
  end.
(* lib/internal_unwind.h:63 *)
Definition CORE_STACKTRACE_FRAME_LIMIT : nat := 256.
(* lib/core_unwind_elfutils.c:88-99 truncate_long_thread *)
Fixpoint truncate_long_thread (frames : list core_frame) (nframes : nat) : list core_frame :=
  match frames with
  | [] => []
  | _ :: r => if Nat.ltb CORE_STACKTRACE_FRAME_LIMIT nframes then truncate_long_thread r (nframes - 1) else frames
  end.
(* lib/core_unwind_elfutils.c:101-155 unwind_thread; Fail is DWARF_CB_ABORT.  (The test for "no frames found" at
   lines 136-140 is never true: error_msg is not NULL there.) *)
Definition unwind_thread (t : unwound) : res core_thread :=
  let '(frames, ret) := getframes (u_frames t) (u_ret t) in
  if (ret =? 1)%Z || (negb (ret =? 0)%Z && negb (ret =? 2)%Z && negb (ret =? -1)%Z) then Fail
  else Ok (mk_core_thread (truncate_long_thread frames (length frames))).
(* dwfl_getthreads: the callback for every thread until one aborts; then what it returns *)
Fixpoint getthreads (threads : list unwound) (ret : Z) : res (list core_thread) :=
  match threads with
  | [] => if (ret =? 0)%Z then Ok [] else Fail
  | t :: r => do x <- unwind_thread t; do xs <- getthreads r ret; Ok (x :: xs)
  end.

(** ** Signals *)
(* gelf_getnote: the type of a note and the size of its name, and the data of name and description *)
Record note := mk_note { n_type : Z; n_namesz : nat; n_name : option (list ascii); n_desc : option (list ascii) }.
(* sizeof(struct elf_prstatus) on x86_64; pr_cursig is the short at offset 12 *)
Definition prstatus_size : nat := 336.
Definition pr_cursig (desc : list ascii) : Z :=
  (let v := Z.of_N (code (nth 12 desc nul)) + 256 * Z.of_N (code (nth 13 desc nul)) in if v <? 32768 then v else v - 65536)%Z.
(* lib/core_unwind.c:380-417 the loop over the notes of a segment; None goes on with the next segment *)
Fixpoint notes_loop (notes : list note) : option Z :=
  match notes with
  | [] => None
  | n :: r =>
    if negb (n_type n =? 1)%Z || Nat.ltb (n_namesz n) 5 then notes_loop r
    else match n_name n, n_desc n with
         | Some name, Some desc =>
           if Nat.ltb (length name) 5 then notes_loop r
           else if negb (starts_with (L "CORE" ++ [nul]) name) then notes_loop r
           else if negb (Nat.eqb (length desc) prstatus_size) then notes_loop r
           else if (pr_cursig desc =? 0)%Z then notes_loop r
           else Some (pr_cursig desc)
         | _, _ => notes_loop r
         end
  end.
(* A segment: its type and the notes in it; None when gelf_getphdr or elf_getdata_rawchunk fails *)
(* lib/core_unwind.c:341-421 get_signal_number; PT_NOTE is 4, None is a failure of elf_getphdrnum *)
Fixpoint segments_loop (segments : list (option (Z * option (list note)))) : Z :=
  match segments with
  | [] => 0%Z
  | Some (4%Z, Some notes) :: r => match notes_loop notes with Some s => s | None => segments_loop r end
  | _ :: r => segments_loop r
  end.
Definition get_signal_number (segments : option (list (option (Z * option (list note))))) : Z :=
  match segments with None => 0%Z | Some l => segments_loop l end.
(* the uint16_t member [signal] *)
Definition w16 (z : Z) : Z := (z mod two16)%Z.

(** ** Whole stack traces *)
(* A core dump that open_coredump can open *)
Record core_dump := mk_core_dump {
  cd_attach : bool;                  (* dwfl_core_file_attach *)
  cd_threads : list unwound;         (* dwfl_getthreads *)
  cd_ret : Z;                        (* its result when no thread aborts *)
  cd_segments : option (list (option (Z * option (list note)))) }.
(* lib/core_unwind_elfutils.c:157-221 sr_parse_coredump; Fail is NULL *)
Definition sr_parse_coredump (dump : option core_dump) (exe_file : option str) : res core_stacktrace :=
  match dump with
  | None => Fail
  | Some d =>
    if cd_attach d then
      do threads <- getthreads (cd_threads d) (cd_ret d);
      Ok (mk_core_stacktrace (w16 (get_signal_number (cd_segments d))) exe_file
            (match threads with [] => None | _ => Some 0 end) threads false)
    else Fail
  end.
(* lib/core_unwind_elfutils.c:307-371 sr_core_stacktrace_from_core_hook_generate.  A failing dwfl_linux_proc_attach
   (lines 330-334) sets the error message and returns the stack trace made so far. *)
Definition sr_core_stacktrace_from_core_hook_generate (attach : bool) (t : unwound) (executable : option str) (signum : Z)
  : res core_stacktrace * bool (* error message set *) :=
  let s := mk_core_stacktrace 0 None None [mk_core_thread []] false in
  if attach then
    let '(frames, ret) := getframes (u_frames t) (u_ret t) in
    if (ret =? 0)%Z || (ret =? 2)%Z then
      (Ok (mk_core_stacktrace (if (0 <? signum)%Z then w16 signum else 0%Z) executable (Some 0)
             [mk_core_thread (truncate_long_thread frames (length frames))] true), false)
    else (Fail, true)
  else (Ok s, true).

(** ** gdb *)
(* lib/core_unwind.c:457-472 the choice of top_frame; [frames] is what the loop still has to visit *)
Fixpoint top_frame_loop (frames : list gdb_frame) (nframes : nat) (top : list gdb_frame) : list gdb_frame :=
  match frames with
  | [] => top
  | f :: r =>
    if gf_signal_handler_called f then top_frame_loop r nframes top
    else match nframes with
         | S n => top_frame_loop r n top
         | 0 => top_frame_loop r 0 (tl top)
         end
  end.
(* lib/core_unwind.c:454-486 one thread *)
Definition core_thread_from_gdb (t : gdb_thread) : core_thread :=
  let top := top_frame_loop (gt_frames t) CORE_STACKTRACE_FRAME_LIMIT (gt_frames t) in
  mk_core_thread (map (fun f => resolve_frame (gf_address f) false) (filter (fun f => negb (gf_signal_handler_called f)) top)).
(* lib/core_unwind.c:423-500 sr_core_stacktrace_from_gdb, after parsing; [executable] is realpath of the file *)
Definition sr_core_stacktrace_from_gdb (g : gdb_stacktrace) (segments : option (list (option (Z * option (list note))))) (executable : option str)
  : core_stacktrace :=
  mk_core_stacktrace (w16 (get_signal_number segments)) executable (sr_gdb_stacktrace_find_crash_thread g)
    (map core_thread_from_gdb (gs_threads g)) false.

(** ** libunwind *)
(* One round of unwinding: the register (None: unw_get_reg failed and the variable is not set), the name from
   unw_get_proc_name, the result of unw_step. *)
Record lu_step := mk_lu_step { lu_ip : option Z; lu_proc_name : option str; lu_ret : Z }.
(* lib/core_unwind_libunwind.c:51-99 the loop, [count] rounds left; [steps i] is round i *)
Fixpoint lu_loop (count i : nat) (steps : nat -> lu_step) : res (list core_frame) :=
  match count with
  | 0 => Ok []
  | S n =>
    let s := steps i in
    match lu_ip s with
    | None => UB
    | Some ip =>
      if (ip =? 0)%Z then Ok []
      else
        let f := resolve_frame ip false in
        let f := match cf_function_name f with
                 | Some _ => f
                 | None => mk_core_frame (cf_address f) (cf_build_id f) (cf_build_id_offset f) (lu_proc_name s) (cf_file_name f) None true
                 end in
        if opt_str_eqb (cf_function_name f) (Some (L "__libc_start_main")) then Ok [f]
        else if (lu_ret s <=? 0)%Z then Ok [f]
        else do r <- lu_loop n (S i) steps; Ok (f :: r)
    end
  end.
(* lib/core_unwind_libunwind.c:32-110 unwind_thread; [init] is the result of unw_init_remote *)
Definition lu_unwind_thread (init : Z) (steps : nat -> lu_step) : res core_thread :=
  if (init <? 0)%Z then Fail else do fs <- lu_loop 999 0 steps; Ok (mk_core_thread fs).
(* lib/core_unwind_libunwind.c:112-127 get_signal_number_libunwind *)
Fixpoint get_signal_number_libunwind (cursigs : list Z) : Z :=
  match cursigs with
  | [] => 0%Z
  | s :: r => if (s =? 0)%Z then get_signal_number_libunwind r else s
  end.
(* lib/core_unwind_libunwind.c:129-206 sr_parse_coredump; None is a core dump that cannot be opened.  When a thread
   fails, the stack trace is freed and then its members are set (lines 183-193). *)
Fixpoint lu_threads (threads : list (Z * (nat -> lu_step))) : res (list core_thread) :=
  match threads with
  | [] => Ok []
  | (init, steps) :: r =>
    match lu_unwind_thread init steps with
    | Ok t => do ts <- lu_threads r; Ok (t :: ts)
    | Fail => UB
    | UB => UB
    end
  end.
Definition lu_parse_coredump (dump : option (list (Z * (nat -> lu_step)))) (cursigs : list Z) (executable : option str) : res core_stacktrace :=
  match dump with
  | None => Fail
  | Some threads =>
    do ts <- lu_threads threads;
    Ok (mk_core_stacktrace (w16 (get_signal_number_libunwind cursigs)) executable (match ts with [] => None | _ => Some 0 end) ts false)
  end.
End Process.
