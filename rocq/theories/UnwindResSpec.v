(** * What is open and allocated before and after. *)
From Verif Require Import Base Types UnwindModel UnwindResModel.
Open Scope nat_scope.

(** Handles are numbered below the next free number; Elf handles read open files. *)
Definition sound (w : world) : Prop :=
  Forall (fun x => fst x < fresh w /\ In (snd x) (fds w)) (elfs w) /\
  Forall (fun x => fst x < fresh w /\ match snd x with Some e => e < fresh w | None => True end) (dwfls w).
(** Everything is as before but for memory: the blocks [new] are allocated in addition. *)
Definition kept (w w' : world) (new : list nat) : Prop :=
  fds w' = fds w /\ elfs w' = elfs w /\ dwfls w' = dwfls w /\ seized w' = seized w /\ Permutation (blocks w') (new ++ blocks w) /\ fresh w <= fresh w'.
(** The memory of a message, of an open core dump, of a stack trace. *)
Definition message_blocks (e : errp) : list nat := match e with Some (Some (b, _)) => [b] | _ => [] end.
Definition segment_blocks (l : list mapping) : list nat := concat (map (fun s => [mp_name s; mp_block s]) l).
Definition handle_blocks (ch : core_handle) : list nat := ch_block ch :: segment_blocks (ch_segments ch).
Definition thread_blocks (t : mthread) : list nat := fst t :: map fst (snd t).
Definition opt_block (x : option nat) : list nat := match x with Some x => [x] | None => [] end.
Definition trace_blocks (t : mtrace) : list nat := let '(b, x, ts) := t in b :: opt_block x ++ concat (map thread_blocks ts).
(** The memory [m] holds the stack trace [s]. *)
Definition holds (m : mtrace) (s : core_stacktrace) : Prop :=
  let '(_, x, ts) := m in map (fun t => map snd (snd t)) ts = map ct_frames (cs_threads s) /\ (x <> None <-> cs_executable s <> None).
(** A caller that gives a place for the message finds one there exactly if there was an error. *)
Definition told (e e' : errp) : Prop := match e with None => e' = None | Some _ => exists b text, e' = Some (Some (b, text)) end.
Definition untold (e e' : errp) : Prop := match e with None => e' = None | Some _ => e' = Some None end.
(** The core dump can be opened: the file opens, is a core dump, its modules are reported, one at least with an ELF file
    and a name. *)
Definition with_file (m : seg_module) : Prop := sg_elf m = true /\ sg_file m <> None.
Definition openable (a : answers) : Prop :=
  o_version a = true /\ (0 <= o_open a)%Z /\ o_elf a = true /\ o_type a = Some 4%Z /\ o_report a <> (-1)%Z /\ o_report_end a = 0%Z /\ o_getmodules a <> (-1)%Z /\
  Exists with_file (o_modules a).
(** The segments of the open core dump: the modules with an ELF file and a name, in order. *)
Inductive mapped : list seg_module -> list (Z * str) -> Prop :=
| mapped_nil : mapped [] []
| mapped_one : forall m f ms l, sg_elf m = true -> sg_file m = Some f -> mapped ms l -> mapped (m :: ms) ((sg_base m, f) :: l)
| mapped_skip : forall m ms l, ~ with_file m -> mapped ms l -> mapped (m :: ms) l.
(** The core dump [ch] is open: its file, its Elf handle reading it, its Dwfl handle using that, its memory. *)
Definition is_open (w w' : world) (ch : core_handle) : Prop :=
  exists eh d, ch_eh ch = Some eh /\ ch_dwfl ch = Some d /\ fds w' = ch_fd ch :: fds w /\ elfs w' = (eh, ch_fd ch) :: elfs w /\ dwfls w' = (d, Some eh) :: dwfls w /\
    seized w' = seized w /\ Permutation (blocks w') (handle_blocks ch ++ blocks w).
(** A descriptor that is not open, or an error. *)
Definition new_file (w : world) (fd : Z) : Prop := (fd < 0)%Z \/ ~ In fd (fds w).
(** libdwfl returns DWARF_CB_ABORT only if the callback did. *)
Definition honest (d : core_dump) : Prop := cd_ret d <> 1%Z /\ Forall (fun u => u_ret u <> 1%Z) (cd_threads d).
(** The process is stopped at its exit. *)
Definition dying (p : hook_answers) (tid : Z) : Prop :=
  fst (p_wait p) = tid /\ exists n, snd (p_wait p) = (n * 256 + 127)%Z /\ n = (5 + 6 * 256)%Z.
(** Making the result of the other unwinders only allocates. *)
Definition only_allocates (make : world -> list nat * world) : Prop :=
  forall w, let '(l, w') := make w in kept w w' l.
(** The process as it is after preparing: standard input is closed, [tid] is traced, the Dwfl handle [d] is open and the
    block [b] allocated. *)
Definition prepared (w w' : world) (tid : Z) (b d : nat) : Prop :=
  Permutation (fds w) (0%Z :: fds w') /\ elfs w' = elfs w /\ dwfls w' = (d, None) :: dwfls w /\ seized w' = tid :: seized w /\ Permutation (blocks w') (b :: blocks w).
(** Only the traced processes and standard input may differ. *)
Definition kept_but_traced (w w' : world) (tid : Z) (new : list nat) : Prop :=
  (fds w' = fds w \/ Permutation (fds w) (0%Z :: fds w')) /\ elfs w' = elfs w /\ dwfls w' = dwfls w /\ (seized w' = seized w \/ seized w' = tid :: seized w) /\
  Permutation (blocks w') (new ++ blocks w).
(** What preparing to unwind a dying process needs: the calls succeed, standard input is open and the process stops at its
    exit. *)
Definition preparable (p : hook_answers) (w : world) (tid : Z) : Prop :=
  p_report p = 0%Z /\ p_report_end p = 0%Z /\ p_seize p = 0%Z /\ In 0%Z (fds w) /\ tid <> (-1)%Z /\ dying p tid.
(** Core dumps unwound one after the other, each with its own place for a message. *)
Fixpoint one_after_the_other (addrmodule : Z -> option module) (cxa_demangle : str -> option str) (dwfl_errmsg : str)
  (l : list (answers * core_dump * str * option str)) (w : world) : res (list (option (mtrace * core_stacktrace) * errp) * world) :=
  match l with
  | [] => Ok ([], w)
  | (a, d, f, exe) :: l =>
    do (r, e, w) <- parse_coredump_in addrmodule cxa_demangle dwfl_errmsg a d f exe (Some None) w;
    do (rs, w) <- one_after_the_other addrmodule cxa_demangle dwfl_errmsg l w;
    Ok ((r, e) :: rs, w)
  end.
(** The message of a failure to open names the call that failed first. *)
Inductive open_message (a : answers) (f : str) : str -> Prop :=
| om_version : o_version a = false -> open_message a f (L "elf_version failed for '" ++ f ++ L "': " ++ o_elf_errmsg a)
| om_open : o_version a = true -> (o_open a < 0)%Z -> open_message a f (L "Unable to open '" ++ f ++ L "': " ++ o_strerror a)
| om_elf : o_version a = true -> (0 <= o_open a)%Z -> o_elf a = false -> open_message a f (L "elf_begin failed for '" ++ f ++ L "': " ++ o_elf_errmsg a)
| om_type : (0 <= o_open a)%Z -> o_elf a = true -> o_type a <> Some 4%Z -> open_message a f (L "File '" ++ f ++ L "' is not a coredump")
| om_report : (0 <= o_open a)%Z -> o_type a = Some 4%Z -> o_report a = (-1)%Z -> open_message a f (L "dwfl_core_file_report failed: " ++ o_dwfl_errmsg a)
| om_report_end : o_type a = Some 4%Z -> o_report a <> (-1)%Z -> o_report_end a <> 0%Z -> open_message a f (L "dwfl_report_end failed: " ++ o_dwfl_errmsg a)
| om_modules : o_type a = Some 4%Z -> o_report a <> (-1)%Z -> o_report_end a = 0%Z -> o_getmodules a = (-1)%Z -> open_message a f (L "dwfl_getmodules failed: " ++ o_dwfl_errmsg a)
| om_none : o_type a = Some 4%Z -> o_report_end a = 0%Z -> o_getmodules a <> (-1)%Z -> ~ Exists with_file (o_modules a) ->
    open_message a f (L "No segments found in coredump '" ++ f ++ L "'").
(** The message of a failure to unwind an open core dump. *)
Inductive unwind_message (d : core_dump) (errmsg : str) : str -> Prop :=
| um_attach : cd_attach d = false -> unwind_message d errmsg (L "dwfl_core_file_attach failed: " ++ errmsg)
| um_frame : forall before u after, cd_attach d = true -> cd_threads d = before ++ u :: after -> In None (u_frames u) ->
    unwind_message d errmsg (L "dwfl_frame_pc failed: " ++ errmsg)
| um_frames : forall before u after, cd_attach d = true -> cd_threads d = before ++ u :: after -> ~ In (u_ret u) [0; 1; 2; -1]%Z ->
    unwind_message d errmsg (L "Unknown error in dwfl_thread_getframes")
| um_threads : cd_attach d = true -> cd_ret d = (-1)%Z -> unwind_message d errmsg (L "dwfl_getthreads failed: " ++ errmsg)
| um_unknown : cd_attach d = true -> ~ In (cd_ret d) [0; 1; -1]%Z -> unwind_message d errmsg (L "Unknown error in dwfl_getthreads").
