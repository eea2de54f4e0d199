(** * What unwinding opens, allocates and gives back (lib/core_unwind.c, lib/core_unwind_elfutils.c,
      lib/core_unwind_libunwind.c).

    The stack traces these functions make are those of UnwindModel.v.  Here they run in a process that has open files,
    libelf and libdwfl handles, allocated memory and processes it traces; what the kernel, libelf, libdwfl and libunwind
    answer are parameters.  Closing, ending or freeing what is not open or allocated is UB, and so is closing a file that
    an Elf handle still uses or ending an Elf handle that a Dwfl handle still uses.  A frame with its strings is one block
    of memory; exhausted memory is not modelled. *)
From Verif Require Import Base Types UtilsModel UnwindModel.
Open Scope nat_scope.

(** ** The process *)
Record world := W {
  fds : list Z;                        (* open files *)
  elfs : list (nat * Z);               (* Elf handles and the file each reads *)
  dwfls : list (nat * option nat);     (* Dwfl handles and the Elf handle each uses *)
  blocks : list nat;                   (* allocated memory *)
  seized : list Z;                     (* traced processes *)
  fresh : nat }.
Fixpoint without {A} (eqb : A -> A -> bool) (x : A) (l : list A) : option (list A) :=
  match l with
  | [] => None
  | y :: r => if eqb x y then Some r else match without eqb x r with Some r => Some (y :: r) | None => None end
  end.
(* g_malloc0, g_strdup *)
Definition malloc (w : world) : nat * world := (fresh w, W (fds w) (elfs w) (dwfls w) (fresh w :: blocks w) (seized w) (S (fresh w))).
(* g_free *)
Definition free (b : nat) (w : world) : res world :=
  match without Nat.eqb b (blocks w) with Some l => Ok (W (fds w) (elfs w) (dwfls w) l (seized w) (fresh w)) | None => UB end.
(* open: the answer is a descriptor, negative for an error *)
Definition opened (fd : Z) (w : world) : world := W (fd :: fds w) (elfs w) (dwfls w) (blocks w) (seized w) (fresh w).
Definition close (fd : Z) (w : world) : res world :=
  if existsb (fun x => Z.eqb (snd x) fd) (elfs w) then UB
  else match without Z.eqb fd (fds w) with Some l => Ok (W l (elfs w) (dwfls w) (blocks w) (seized w) (fresh w)) | None => UB end.
Definition elf_begin (fd : Z) (w : world) : nat * world :=
  (fresh w, W (fds w) ((fresh w, fd) :: elfs w) (dwfls w) (blocks w) (seized w) (S (fresh w))).
Fixpoint drop_key {A} (k : nat) (l : list (nat * A)) : option (list (nat * A)) :=
  match l with
  | [] => None
  | (x, a) :: r => if Nat.eqb x k then Some r else match drop_key k r with Some r => Some ((x, a) :: r) | None => None end
  end.
Definition elf_end (e : nat) (w : world) : res world :=
  if existsb (fun x => match snd x with Some y => Nat.eqb y e | None => false end) (dwfls w) then UB
  else match drop_key e (elfs w) with Some l => Ok (W (fds w) l (dwfls w) (blocks w) (seized w) (fresh w)) | None => UB end.
Definition dwfl_begin (w : world) : nat * world :=
  (fresh w, W (fds w) (elfs w) ((fresh w, None) :: dwfls w) (blocks w) (seized w) (S (fresh w))).
(* dwfl_core_file_report: the Dwfl handle uses the Elf handle from now on *)
Definition dwfl_uses (d e : nat) (w : world) : world :=
  W (fds w) (elfs w) (map (fun x => if Nat.eqb (fst x) d then (fst x, Some e) else x) (dwfls w)) (blocks w) (seized w) (fresh w).
Definition dwfl_end (d : nat) (w : world) : res world :=
  match drop_key d (dwfls w) with Some l => Ok (W (fds w) (elfs w) l (blocks w) (seized w) (fresh w)) | None => UB end.

(** ** Error messages *)
(* char **error_msg: None is a null pointer; what it points to is NULL or a string in memory *)
Definition errp := option (option (nat * str)).
(* "if (error_msg) *error_msg = NULL" *)
Definition no_error (e : errp) : errp := match e with Some _ => Some None | None => None end.
(* lib/core_unwind.c:94-105 _set_error *)
Definition set_error (e : errp) (text : str) (w : world) : errp * world :=
  match e with None => (None, w) | Some _ => let '(b, w) := malloc w in (Some (Some (b, text)), w) end.
(* lib/internal_unwind.h:36-39 set_error_dwfl, set_error_elf *)
Definition dwfl_failed (f errmsg : str) : str := f ++ L " failed: " ++ errmsg.
Definition elf_failed (f elf_file errmsg : str) : str := f ++ L " failed for '" ++ elf_file ++ L "': " ++ errmsg.

(** ** Core dumps *)
(* lib/internal_unwind.h:67-72 struct exe_mapping_data: its block, start and file name with the name's block.  The list
   is a Coq list. *)
Record mapping := mk_mapping { mp_block : nat; mp_start : Z; mp_name : nat; mp_file : str }.
(* lib/internal_unwind.h:74-81 struct core_handle *)
Record core_handle := mk_handle { ch_block : nat; ch_fd : Z; ch_eh : option nat; ch_dwfl : option nat; ch_segments : list mapping }.
(* A module as dwfl_getmodules reports it: whether dwfl_module_getelf finds its ELF file, its start and file name *)
Record seg_module := mk_seg { sg_elf : bool; sg_base : Z; sg_file : option str }.
(* The answers to the calls of open_coredump in turn; [o_type] is e_type of the header gelf_getehdr reads, [o_modules] the
   modules dwfl_getmodules calls back for *)
Record answers := mk_answers {
  o_version : bool; o_open : Z; o_strerror : str; o_elf : bool; o_elf_errmsg : str; o_type : option Z;
  o_report : Z; o_report_end : Z; o_modules : list seg_module; o_getmodules : Z; o_dwfl_errmsg : str }.

(* lib/core_unwind.c:175-201 touch_module, for every module in turn *)
Fixpoint touch_modules (ms : list seg_module) (w : world) : list mapping * world :=
  match ms with
  | [] => ([], w)
  | m :: r =>
    match sg_elf m, sg_file m with
    | true, Some f =>
      let '(b, w) := malloc w in
      let '(n, w) := malloc w in
      let '(l, w) := touch_modules r w in
      (mk_mapping b (sg_base m) n f :: l, w)
    | _, _ => touch_modules r w
    end
  end.
(* lib/core_unwind.c:277-286 the labels at the end of open_coredump *)
Definition fail_free (b : nat) (e : errp) (w : world) : res (option core_handle * errp * world) := do w <- free b w; Ok (None, e, w).
Definition fail_close (b : nat) (fd : Z) (e : errp) (w : world) := do w <- close fd w; fail_free b e w.
Definition fail_elf (b : nat) (fd : Z) (eh : nat) (e : errp) (w : world) := do w <- elf_end eh w; fail_close b fd e w.
Definition fail_dwfl (b : nat) (fd : Z) (eh dwfl : nat) (e : errp) (w : world) := do w <- dwfl_end dwfl w; fail_elf b fd eh e w.
(* lib/core_unwind.c:203-289 open_coredump *)
Definition open_coredump (a : answers) (elf_file : str) (e : errp) (w : world) : res (option core_handle * errp * world) :=
  let '(b, w) := malloc w in
  if negb (o_version a) then let '(e, w) := set_error e (elf_failed (L "elf_version") elf_file (o_elf_errmsg a)) w in fail_free b e w
  else if (o_open a <? 0)%Z then let '(e, w) := set_error e (L "Unable to open '" ++ elf_file ++ L "': " ++ o_strerror a) w in fail_free b e w
  else
    let fd := o_open a in
    let w := opened fd w in
    if negb (o_elf a) then let '(e, w) := set_error e (elf_failed (L "elf_begin") elf_file (o_elf_errmsg a)) w in fail_close b fd e w
    else
      let '(eh, w) := elf_begin fd w in
      if negb (match o_type a with Some t => Z.eqb t 4 | None => false end) then
        let '(e, w) := set_error e (L "File '" ++ elf_file ++ L "' is not a coredump") w in fail_elf b fd eh e w
      else
        let '(dwfl, w) := dwfl_begin w in
        let w := dwfl_uses dwfl eh w in
        if Z.eqb (o_report a) (-1) then
          let '(e, w) := set_error e (dwfl_failed (L "dwfl_core_file_report") (o_dwfl_errmsg a)) w in fail_dwfl b fd eh dwfl e w
        else if negb (Z.eqb (o_report_end a) 0) then
          let '(e, w) := set_error e (dwfl_failed (L "dwfl_report_end") (o_dwfl_errmsg a)) w in fail_dwfl b fd eh dwfl e w
        else
          let '(head, w) := touch_modules (o_modules a) w in
          if Z.eqb (o_getmodules a) (-1) then
            let '(e, w) := set_error e (dwfl_failed (L "dwfl_getmodules") (o_dwfl_errmsg a)) w in fail_dwfl b fd eh dwfl e w
          else
            match head with
            | [] =>
              let '(e, w) := match e with
                             | Some None => set_error e (L "No segments found in coredump '" ++ elf_file ++ L "'") w
                             | _ => (e, w)
                             end in
              fail_dwfl b fd eh dwfl e w
            | _ => Ok (Some (mk_handle b fd (Some eh) (Some dwfl) head), e, w)
            end.
(* lib/core_unwind.c:107-130 core_handle_free *)
Fixpoint free_segments (l : list mapping) (w : world) : res world :=
  match l with
  | [] => Ok w
  | s :: r => do w <- free (mp_name s) w; do w <- free (mp_block s) w; free_segments r w
  end.
Definition core_handle_free (ch : option core_handle) (w : world) : res world :=
  match ch with
  | None => Ok w
  | Some c =>
    do w <- free_segments (ch_segments c) w;
    do w <- match ch_dwfl c with Some d => dwfl_end d w | None => Ok w end;
    do w <- match ch_eh c with Some e => elf_end e w | None => Ok w end;
    do w <- if (0 <? ch_fd c)%Z then close (ch_fd c) w else Ok w;
    free (ch_block c) w
  end.

(** ** elfutils *)
(* Frames and threads with their blocks *)
Definition mframe := (nat * core_frame)%type.
Definition mthread := (nat * list mframe)%type.
Section Process.
Variable addrmodule : Z -> option module.
Variable cxa_demangle : str -> option str.
Variable dwfl_errmsg : str.

Fixpoint free_frames (l : list mframe) (w : world) : res world :=
  match l with [] => Ok w | (b, _) :: r => do w <- free b w; free_frames r w end.
Definition thread_free (t : mthread) (w : world) : res world := do w <- free_frames (snd t) w; free (fst t) w.
Fixpoint threads_free (l : list mthread) (w : world) : res world :=
  match l with [] => Ok w | t :: r => do w <- thread_free t w; threads_free r w end.
(* lib/core_unwind_elfutils.c:57-86 frame_callback as in UnwindModel.v: the frames appended, the value returned, the
   message *)
Fixpoint getframes_in (frames : list (option (Z * bool))) (ret : Z) (w : world) : res (list mframe * Z * option (nat * str) * world) :=
  match frames with
  | [] => Ok ([], ret, None, w)
  | None :: _ => let '(b, w) := malloc w in Ok ([], 1%Z, Some (b, dwfl_failed (L "dwfl_frame_pc") dwfl_errmsg), w)
  | Some (pc, minus_one) :: r =>
    let f := resolve_frame addrmodule cxa_demangle pc minus_one in
    let '(b, w) := malloc w in
    if opt_str_eqb (cf_function_name f) (Some (L "__libc_start_main")) then do w <- free b w; Ok ([], 2%Z, None, w)
    else
      do (fs, ret, e, w) <- getframes_in r ret w;
      Ok ((b, f) :: fs, ret, e, w)
  end.
(* lib/core_unwind_elfutils.c:88-99 truncate_long_thread *)
Fixpoint truncate_in (frames : list mframe) (nframes : nat) (w : world) : res (list mframe * world) :=
  match frames with
  | [] => Ok ([], w)
  | (b, _) :: r => if Nat.ltb CORE_STACKTRACE_FRAME_LIMIT nframes then do w <- free b w; truncate_in r (nframes - 1) w else Ok (frames, w)
  end.
(* lib/core_unwind_elfutils.c:101-155 unwind_thread; None is DWARF_CB_ABORT, with thread_arg->error_msg *)
Definition unwind_thread_in (t : unwound) (w : world) : res (option mthread * option (nat * str) * world) :=
  let '(b, w) := malloc w in
  do (frames, ret, e, w) <- getframes_in (u_frames t) (u_ret t) w;
  if Z.eqb ret 1 then do w <- thread_free (b, frames) w; Ok (None, e, w)
  else if negb (Z.eqb ret 0) && negb (Z.eqb ret 2) && negb (Z.eqb ret (-1)) then
    let '(m, w) := malloc w in
    do w <- thread_free (b, frames) w;
    Ok (None, Some (m, L "Unknown error in dwfl_thread_getframes"), w)
  else
    do (frames, w) <- truncate_in frames (length frames) w;
    Ok (Some (b, frames), None, w).
(* dwfl_getthreads: the threads appended, the value returned, thread_arg.error_msg *)
Fixpoint getthreads_in (threads : list unwound) (ret : Z) (w : world) : res (list mthread * Z * option (nat * str) * world) :=
  match threads with
  | [] => Ok ([], ret, None, w)
  | t :: r =>
    do (x, e, w) <- unwind_thread_in t w;
    match x with
    | None => Ok ([], 1%Z, e, w)
    | Some x => do (xs, ret, e, w) <- getthreads_in r ret w; Ok (x :: xs, ret, e, w)
    end
  end.
(* "%s" of the message; g_free *)
Definition pass_error (e : errp) (m : option (nat * str)) (w : world) : res (errp * world) :=
  match m with
  | Some (b, text) => let '(e, w) := set_error e text w in do w <- free b w; Ok (e, w)
  | None => UB
  end.
(* a stack trace with its threads: its block and that of the string [executable] *)
Definition mtrace := (nat * option nat * list mthread)%type.
(* lib/core_unwind_elfutils.c:157-221 sr_parse_coredump; [d] is the core dump once open *)
Definition parse_coredump_in (a : answers) (d : core_dump) (core_file : str) (exe_file : option str) (e : errp) (w : world)
  : res (option (mtrace * core_stacktrace) * errp * world) :=
  let e := no_error e in
  do (ch, e, w) <- open_coredump a core_file e w;
  match ch with
  | None => do w <- core_handle_free None w; Ok (None, e, w)
  | Some ch =>
    if negb (cd_attach d) then
      let '(e, w) := set_error e (dwfl_failed (L "dwfl_core_file_attach") dwfl_errmsg) w in
      do w <- core_handle_free (Some ch) w; Ok (None, e, w)
    else
      let '(b, w) := malloc w in
      do (ts, ret, m, w) <- getthreads_in (cd_threads d) (cd_ret d) w;
      if negb (Z.eqb ret 0) then
        do (e, w) <- (if Z.eqb ret (-1) then Ok (set_error e (dwfl_failed (L "dwfl_getthreads") dwfl_errmsg) w)
                      else if Z.eqb ret 1 then pass_error e m w
                      else Ok (set_error e (L "Unknown error in dwfl_getthreads") w));
        do w <- threads_free ts w;
        do w <- free b w;
        do w <- core_handle_free (Some ch) w; Ok (None, e, w)
      else
        let '(x, w) := match exe_file with Some _ => let '(x, w) := malloc w in (Some x, w) | None => (None, w) end in
        let s := mk_core_stacktrace (w16 (get_signal_number (cd_segments d))) exe_file (match ts with [] => None | _ => Some 0 end)
                   (map (fun t => mk_core_thread (map snd (snd t))) ts) false in
        do w <- core_handle_free (Some ch) w;
        Ok (Some ((b, x, ts), s), e, w)
  end.

(** ** Dying processes *)
(* lib/core_unwind_elfutils.c:50-53 struct sr_core_stracetrace_unwind_state: its block and handle *)
Definition unwind_state := (nat * option nat)%type.
(* lib/core_unwind_elfutils.c:223-236 sr_core_stacktrace_unwind_state_free *)
Definition unwind_state_free (s : option unwind_state) (w : world) : res world :=
  match s with
  | None => Ok w
  | Some (b, d) => do w <- match d with Some d => dwfl_end d w | None => Ok w end; free b w
  end.
(* The answers to the calls of prepare; [p_wait] is what waitpid returns and the status *)
Record hook_answers := mk_hook { p_report : Z; p_report_end : Z; p_seize : Z; p_strerror : str; p_wait : Z * Z }.
(* WIFSTOPPED; SIGTRAP is 5 and PTRACE_EVENT_EXIT is 6; a signed status is shifted arithmetically *)
Definition wifstopped (status : Z) : bool := Z.eqb (status mod 256) 127.
Definition at_exit (status : Z) : bool := Z.eqb (Z.shiftr status 8) (Z.lor 5 (Z.shiftl 6 8)).
(* lib/core_unwind_elfutils.c:238-306 sr_core_stacktrace_from_core_hook_prepare.  Simplification: closing standard input
   fails exactly if it is not open; the messages that contain numbers are parameters. *)
Definition hook_prepare (p : hook_answers) (msg : Z -> str) (tid : Z) (e : errp) (w : world) : res (option unwind_state * errp * world) :=
  let e := no_error e in
  let '(b, w) := malloc w in
  let '(d, w) := dwfl_begin w in
  let fail (text : str) (w : world) := let '(e, w) := set_error e text w in do w <- unwind_state_free (Some (b, Some d)) w; Ok (None, e, w) in
  if negb (Z.eqb (p_report p) 0) then fail (dwfl_failed (L "dwfl_linux_proc_report") dwfl_errmsg) w
  else if negb (Z.eqb (p_report_end p) 0) then fail (dwfl_failed (L "dwfl_report_end") dwfl_errmsg) w
  else if negb (Z.eqb (p_seize p) 0) then fail (msg 0%Z) w
  else
    let w := W (fds w) (elfs w) (dwfls w) (blocks w) (tid :: seized w) (fresh w) in
    match without Z.eqb 0%Z (fds w) with
    | None => fail (L "Failed to close stdin: " ++ p_strerror p) w
    | Some l =>
      let w := W l (elfs w) (dwfls w) (blocks w) (seized w) (fresh w) in
      let '(got, status) := p_wait p in
      if Z.eqb got (-1) then fail (L "waitpid failed: " ++ p_strerror p) w
      else if negb (Z.eqb got tid) then fail (msg 1%Z) w
      else if negb (wifstopped status) then fail (msg 2%Z) w
      else if negb (at_exit status) then fail (msg 3%Z) w
      else Ok (Some (b, Some d), e, w)
    end.
(* lib/core_unwind_elfutils.c:308-371 sr_core_stacktrace_from_core_hook_generate *)
Definition hook_generate (attach : bool) (t : unwound) (executable : option str) (signum : Z) (st : unwind_state) (e : errp) (w : world)
  : res (option (mtrace * core_stacktrace) * errp * world) :=
  let '(b, w) := malloc w in
  let '(tb, w) := malloc w in
  if negb attach then
    let '(e, w) := set_error e (dwfl_failed (L "dwfl_linux_proc_attach") dwfl_errmsg) w in
    do w <- unwind_state_free (Some st) w;
    Ok (Some ((b, None, [(tb, [])]), mk_core_stacktrace 0 None None [mk_core_thread []] false), e, w)
  else
    do (frames, ret, m, w) <- getframes_in (u_frames t) (u_ret t) w;
    if negb (Z.eqb ret 0) && negb (Z.eqb ret 2) then
      do (e, w) <- (if Z.eqb ret (-1) then Ok (set_error e (dwfl_failed (L "dwfl_getthread_frames") dwfl_errmsg) w)
                    else if Z.eqb ret 1 then pass_error e m w
                    else Ok (set_error e (L "Unknown error in dwfl_getthreads") w));
      do w <- threads_free [(tb, frames)] w;
      do w <- free b w;
      do w <- unwind_state_free (Some st) w; Ok (None, e, w)
    else
      do (frames, w) <- truncate_in frames (length frames) w;
      let '(x, w) := match executable with Some _ => let '(x, w) := malloc w in (Some x, w) | None => (None, w) end in
      do w <- unwind_state_free (Some st) w;
      Ok (Some ((b, x, [(tb, frames)]),
                mk_core_stacktrace (if (0 <? signum)%Z then w16 signum else 0%Z) executable (Some 0) [mk_core_thread (map snd frames)] true), e, w).
(* lib/core_unwind_elfutils.c:373-386 sr_core_stacktrace_from_core_hook *)
Definition core_hook (p : hook_answers) (msg : Z -> str) (attach : bool) (t : unwound) (tid : Z) (executable : option str) (signum : Z) (e : errp) (w : world)
  : res (option (mtrace * core_stacktrace) * errp * world) :=
  do (st, e, w) <- hook_prepare p msg tid e w;
  match st with
  | None => Ok (None, e, w)
  | Some st => hook_generate attach t executable signum st e w
  end.
End Process.

(** ** gdb and libunwind: opening and releasing only *)
(* lib/core_unwind.c:423-500 sr_core_stacktrace_from_gdb around the work: a null error_msg is asserted against; [parse] is
   the stack trace parsed from the output with the blocks of the result, or the message of a failure.  The memory of the
   parsed gdb stack trace, freed at the end, is left out. *)
Definition from_gdb_in {A} (a : answers) (core_file : str) (parse : core_handle -> A + str) (make : A -> world -> list nat * world) (e : errp) (w : world)
  : res (option (A * list nat) * errp * world) :=
  match e with
  | None => UB
  | Some _ =>
    do (ch, e, w) <- open_coredump a core_file (no_error e) w;
    match e with
    | None => UB
    | Some (Some _) => Ok (None, e, w)
    | Some None =>
      match ch with
      | None => UB
      | Some ch =>
        match parse ch with
        | inr text => let '(e, w) := set_error e text w in do w <- core_handle_free (Some ch) w; Ok (None, e, w)
        | inl x => let '(l, w) := make x w in do w <- core_handle_free (Some ch) w; Ok (Some (x, l), e, w)
        end
      end
    end
  end.
(* lib/core_unwind_libunwind.c:129-206 sr_parse_coredump around the work: the address space and the accessors are made and
   destroyed like memory; [threads] is the stack trace made, if no thread fails (C65).  The message left
   for a thread without frames is left out. *)
Definition lu_parse_in {A} (a : answers) (core_file : str) (space accessors : bool) (threads : core_handle -> A) (make : A -> world -> list nat * world) (e : errp) (w : world)
  : res (option (A * list nat) * errp * world) :=
  do (ch, e, w) <- open_coredump a core_file (no_error e) w;
  match e with
  | None => UB
  | Some (Some _) => Ok (None, e, w)
  | Some None =>
    match ch with
    | None => UB
    | Some ch =>
      if negb space then
        let '(e, w) := set_error e (L "Failed to create address space") w in
        do w <- core_handle_free (Some ch) w; Ok (None, e, w)
      else
        let '(as_, w) := malloc w in
        if negb accessors then
          let '(e, w) := set_error e (L "Failed to set up core dump accessors for '" ++ core_file ++ L "'") w in
          do w <- free as_ w; do w <- core_handle_free (Some ch) w; Ok (None, e, w)
        else
          let '(ui, w) := malloc w in
          let x := threads ch in
          let '(l, w) := make x w in
          do w <- free ui w; do w <- free as_ w; do w <- core_handle_free (Some ch) w;
          Ok (Some (x, l), e, w)
    end
  end.
