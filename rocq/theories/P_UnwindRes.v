(** * C76: unwinding gives back what it opened. *)
From Verif Require Import Base Types UnwindModel UnwindResModel UnwindResSpec UnwindResProofs UnwindResProofs2 UnwindResProofs3 UnwindResProofs4.
Open Scope nat_scope.

(** Opening a core dump either succeeds, and then the file, one Elf handle, one Dwfl handle and the memory of the returned
    structure are what is new, or fails and leaves a message; then nothing is left open, and the memory left is that of the
    message unless dwfl_getmodules failed. *)
Theorem C76_open : forall a f e w, sound w -> e = None \/ e = Some None -> new_file w (o_open a) ->
  exists r e' w', open_coredump a f e w = Ok (r, e', w') /\
    match r with
    | Some ch => openable a /\ e' = e /\ ch_fd ch = o_open a /\ is_open w w' ch /\ mapped (o_modules a) (map (fun s => (mp_start s, mp_file s)) (ch_segments ch))
    | None => ~ openable a /\ told e e' /\ exists leaked, kept w w' (message_blocks e' ++ leaked) /\ (o_getmodules a <> (-1)%Z -> leaked = [])
    end.
Proof. exact open_ok. Qed.
(** Releasing an open core dump restores the process as it was. *)
Theorem C76_release : forall a f e w, sound w -> e = None \/ e = Some None -> new_file w (o_open a) -> o_open a <> 0%Z ->
  forall ch e' w', open_coredump a f e w = Ok (Some ch, e', w') -> exists w'', core_handle_free (Some ch) w' = Ok w'' /\ kept w w'' [].
Proof. exact open_free. Qed.
(** Unwinding a core dump: the result is the stack trace of C65, or NULL and a message.  Afterwards the same files and
    handles are open as before and only the memory of the result, or of the message, is new. *)
Theorem C76_core_dump : forall addrmodule cxa_demangle dwfl_errmsg a d f exe e w, sound w -> new_file w (o_open a) -> o_open a <> 0%Z -> honest d ->
  exists r e' w', parse_coredump_in addrmodule cxa_demangle dwfl_errmsg a d f exe e w = Ok (r, e', w') /\
    match r with
    | Some (m, s) => openable a /\ sr_parse_coredump addrmodule cxa_demangle (Some d) exe = Ok s /\ untold e e' /\ holds m s /\ kept w w' (trace_blocks m)
    | None => (openable a -> sr_parse_coredump addrmodule cxa_demangle (Some d) exe = Fail) /\ told e e' /\
        exists leaked, kept w w' (message_blocks e' ++ leaked) /\ (o_getmodules a <> (-1)%Z -> leaked = [])
    end.
Proof. exact parse_ok. Qed.
(** The message names the file and the call that failed. *)
Theorem C76_open_message : forall a f w b text w', open_coredump a f (Some None) w = Ok (None, Some (Some (b, text)), w') -> open_message a f text.
Proof. exact open_says. Qed.
Theorem C76_message : forall addrmodule cxa_demangle dwfl_errmsg a d f exe w b text w', sound w -> new_file w (o_open a) -> o_open a <> 0%Z -> honest d ->
  parse_coredump_in addrmodule cxa_demangle dwfl_errmsg a d f exe (Some None) w = Ok (None, Some (Some (b, text)), w') ->
  open_message a f text \/ openable a /\ unwind_message d dwfl_errmsg text.
Proof. exact parse_says. Qed.
(** So any number of core dumps can be unwound one after the other: files and handles do not accumulate, and the memory
    that does is that of the results. *)
Theorem C76_many : forall addrmodule cxa_demangle dwfl_errmsg l w, sound w ->
  Forall (fun '(a, d, f, exe) => new_file w (o_open a) /\ o_open a <> 0%Z /\ honest d) l ->
  exists rs w' new, one_after_the_other addrmodule cxa_demangle dwfl_errmsg l w = Ok (rs, w') /\ length rs = length l /\ kept w w' new /\
    (Forall (fun '(a, d, f, exe) => o_getmodules a <> (-1)%Z) l ->
     Permutation new (concat (map (fun '(r, e) => match r with Some (m, _) => trace_blocks m | None => message_blocks e end) rs))).
Proof. exact many_ok. Qed.
(** Preparing to unwind a dying process succeeds exactly if the calls succeed, standard input is open and the process stops
    at its exit.  If it fails the handle and its memory are gone; the process may stay traced and standard input closed. *)
Theorem C76_prepare : forall dwfl_errmsg p msg tid e w, sound w ->
  exists r e' w', hook_prepare dwfl_errmsg p msg tid e w = Ok (r, e', w') /\
    match r with
    | Some (b, d') => exists d, d' = Some d /\ preparable p w tid /\ untold e e' /\ prepared w w' tid b d
    | None => ~ preparable p w tid /\ told e e' /\ kept_but_traced w w' tid (message_blocks e') /\
        (p_report p <> 0%Z \/ p_report_end p <> 0%Z \/ p_seize p <> 0%Z -> kept w w' (message_blocks e'))
    end.
Proof. exact (prepare_ok (fun _ => None) (fun _ => None)). Qed.
(** Unwinding a dying process: the stack trace of C65; no handle stays open; only the memory of the result and of the
    message is new. *)
Theorem C76_dying_process : forall addrmodule cxa_demangle dwfl_errmsg p msg attach u tid exe signum e w, sound w -> u_ret u <> 1%Z ->
  exists r e' w', core_hook addrmodule cxa_demangle dwfl_errmsg p msg attach u tid exe signum e w = Ok (r, e', w') /\
    match r with
    | Some (m, s) => preparable p w tid /\ fst (sr_core_stacktrace_from_core_hook_generate addrmodule cxa_demangle attach u exe signum) = Ok s /\ holds m s /\
        (attach = true -> untold e e') /\ (attach = false -> told e e') /\ kept_but_traced w w' tid (message_blocks e' ++ trace_blocks m)
    | None => (preparable p w tid -> fst (sr_core_stacktrace_from_core_hook_generate addrmodule cxa_demangle attach u exe signum) = Fail) /\ told e e' /\
        kept_but_traced w w' tid (message_blocks e')
    end.
Proof. exact hook_ok. Qed.
(** The same through gdb and through libunwind, whatever the stack trace made, for callers that give a place for the
    message. *)
Theorem C76_gdb : forall A a f (parse : core_handle -> A + str) make e w, sound w -> new_file w (o_open a) -> o_open a <> 0%Z -> (forall x, only_allocates (make x)) -> e <> None ->
  exists r e' w', from_gdb_in a f parse make e w = Ok (r, e', w') /\
    match r with
    | Some (x, l) => openable a /\ untold e e' /\ kept w w' l /\ exists ch, ch_fd ch = o_open a /\ parse ch = inl x
    | None => told e e' /\ exists leaked, kept w w' (message_blocks e' ++ leaked) /\ (o_getmodules a <> (-1)%Z -> leaked = [])
    end.
Proof. exact @gdb_ok. Qed.
Theorem C76_libunwind : forall A a f space accessors (threads : core_handle -> A) make e w, sound w -> new_file w (o_open a) -> o_open a <> 0%Z ->
  (forall x, only_allocates (make x)) -> e <> None ->
  exists r e' w', lu_parse_in a f space accessors threads make e w = Ok (r, e', w') /\
    match r with
    | Some (x, l) => openable a /\ untold e e' /\ kept w w' l
    | None => told e e' /\ exists leaked, kept w w' (message_blocks e' ++ leaked) /\ (o_getmodules a <> (-1)%Z -> leaked = [])
    end.
Proof. exact @lu_ok. Qed.

(** ** Where it does not hold *)
Definition C76_answers (fd : Z) (modules : list seg_module) (getmodules : Z) : answers :=
  mk_answers true fd (L "No such file") true (L "bad ELF") (Some 4%Z) 1 0 modules getmodules (L "dwfl").
Definition C76_modules : list seg_module := [mk_seg false 4096 None; mk_seg true 4194304 (Some (L "/usr/bin/prog")); mk_seg true 8388608 (Some (L "/usr/lib/libc.so.6"))].
Definition C76_start : world := W [0; 1; 2]%Z [] [] [] [] 0.
Lemma C76_start_sound : sound C76_start. Proof. split; constructor. Qed.
(** A core dump opened as descriptor 0 stays open. *)
Theorem C76_descriptor_zero_refuted : exists w a d w' r e', sound w /\ new_file w (o_open a) /\ openable a /\ honest d /\
  parse_coredump_in (fun _ => None) (fun _ => None) [] a d (L "core") None (Some None) w = Ok (Some r, e', w') /\ ~ In 0%Z (fds w) /\ In 0%Z (fds w').
Proof.
  exists (W [1; 2]%Z [] [] [] [] 0), (C76_answers 0 C76_modules 0), (mk_core_dump true [] 0 None). do 3 eexists. split; [split; constructor|].
  split; [right; cbn; intuition discriminate|]. split.
  - unfold openable. repeat split; try discriminate. apply Exists_cons_tl, Exists_cons_hd. split; [reflexivity|discriminate].
  - split; [split; [discriminate|constructor]|]. split; [vm_compute; reflexivity|]. split; [cbn; intuition discriminate|left; reflexivity].
Qed.
(** When dwfl_getmodules fails after some modules, their memory is lost. *)
Theorem C76_segments_refuted : exists w a w' e', sound w /\ new_file w (o_open a) /\ open_coredump a (L "core") (Some None) w = Ok (None, e', w') /\
  ~ Permutation (blocks w') (message_blocks e' ++ blocks w).
Proof.
  exists C76_start, (C76_answers 3 C76_modules (-1)). do 2 eexists. split; [exact C76_start_sound|]. split; [right; cbn; intuition discriminate|]. split; [vm_compute; reflexivity|].
  intros P. apply Permutation_length in P. discriminate P.
Qed.
(** Preparing that fails after the process was seized leaves it traced and standard input closed. *)
Theorem C76_traced_refuted : exists w p w' e', sound w /\ hook_prepare [] p (fun _ => []) 42 (Some None) w = Ok (None, e', w') /\ seized w = [] /\ seized w' = [42%Z] /\
  In 0%Z (fds w) /\ ~ In 0%Z (fds w').
Proof.
  exists C76_start, (mk_hook 0 0 0 [] (42, 0)%Z). do 2 eexists. split; [exact C76_start_sound|]. split; [vm_compute; reflexivity|]. split; [reflexivity|]. split; [reflexivity|].
  split; [left; reflexivity|]. cbn. intuition discriminate.
Qed.
(** Without a place for the message gdb fails an assertion, and libunwind dereferences a null pointer, which the header
    does not rule out. *)
Theorem C76_null_message_refuted : forall A a f space accessors (threads : core_handle -> A) make w, sound w -> new_file w (o_open a) ->
  lu_parse_in a f space accessors threads make None w = UB.
Proof. exact @lu_null. Qed.
Theorem C76_gdb_null_message : forall A a f (parse : core_handle -> A + str) make w, from_gdb_in a f parse make None w = UB.
Proof. reflexivity. Qed.

(** ** Examples *)
Definition C76_unwound : unwound := mk_unwound [Some (4096, false); Some (8192, true)]%Z 0.
Definition C76_dump : core_dump := mk_core_dump true [C76_unwound; C76_unwound] 0 None.
(** Two threads of two frames: nine blocks with the structure and the name of the executable, the files as before. *)
Example C76_example : exists m s w', parse_coredump_in (fun _ => None) (fun _ => None) [] (C76_answers 3 C76_modules 0) C76_dump (L "core") (Some (L "/usr/bin/prog")) (Some None) C76_start =
  Ok (Some (m, s), Some None, w') /\ fds w' = [0; 1; 2]%Z /\ elfs w' = [] /\ dwfls w' = [] /\ length (blocks w') = 8 /\ length (trace_blocks m) = 8 /\ length (cs_threads s) = 2.
Proof. do 3 eexists. split; [vm_compute; reflexivity|]. repeat split; reflexivity. Qed.
Example C76_example_applies : sound C76_start /\ new_file C76_start 3 /\ honest C76_dump /\ openable (C76_answers 3 C76_modules 0).
Proof.
  split; [exact C76_start_sound|]. split; [right; cbn; intuition discriminate|]. split; [split; [discriminate|constructor; [discriminate|constructor; [discriminate|constructor]]]|].
  unfold openable. repeat split; try discriminate. apply Exists_cons_tl, Exists_cons_hd. split; [reflexivity|discriminate].
Qed.
(** A missing file, a file that is no core dump, a core dump without usable modules, a frame that cannot be unwound. *)
Example C76_example_fails : forall a d, In (a, d)
    [(C76_answers (-1) C76_modules 0, C76_dump); (mk_answers true 3 [] true [] (Some 2%Z) 1 0 C76_modules 0 [], C76_dump); (C76_answers 3 [mk_seg false 4096 None] 0, C76_dump);
     (C76_answers 3 C76_modules 0, mk_core_dump true [C76_unwound; mk_unwound [Some (4096, false); None]%Z 0] 0 None)] ->
  exists b text w', parse_coredump_in (fun _ => None) (fun _ => None) (L "dwfl") a d (L "core") None (Some None) C76_start = Ok (None, Some (Some (b, text)), w') /\ text <> [] /\
    fds w' = [0; 1; 2]%Z /\ elfs w' = [] /\ dwfls w' = [] /\ blocks w' = [b].
Proof.
  intros a d Hi. cbn [In] in Hi.
  repeat (destruct Hi as [Hi|Hi]; [injection Hi as <- <-; do 3 eexists; split; [vm_compute; reflexivity|]; split; [discriminate|]; repeat split; reflexivity|]). destruct Hi.
Qed.
(** A process stopped at its exit. *)
Example C76_example_hook : exists m s w', core_hook (fun _ => None) (fun _ => None) [] (mk_hook 0 0 0 [] (42, (5 + 6 * 256) * 256 + 127)%Z) (fun _ => []) true C76_unwound 42 (Some (L "/usr/bin/prog")) 11
    (Some None) C76_start = Ok (Some (m, s), Some None, w') /\ fds w' = [1; 2]%Z /\ dwfls w' = [] /\ seized w' = [42%Z] /\ length (blocks w') = 5.
Proof. do 3 eexists. split; [vm_compute; reflexivity|]. repeat split; reflexivity. Qed.
Print Assumptions C76_open.
Print Assumptions C76_release.
Print Assumptions C76_core_dump.
Print Assumptions C76_open_message.
Print Assumptions C76_message.
Print Assumptions C76_many.
Print Assumptions C76_prepare.
Print Assumptions C76_dying_process.
Print Assumptions C76_gdb.
Print Assumptions C76_libunwind.
Print Assumptions C76_descriptor_zero_refuted.
Print Assumptions C76_segments_refuted.
Print Assumptions C76_traced_refuted.
Print Assumptions C76_null_message_refuted.
Print Assumptions C76_gdb_null_message.
