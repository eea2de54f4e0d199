(** * Properties C50, C51, C53, C59: address lookups, call graphs, unstrip output, conversion. *)
From Verif Require Import Base Types UtilsModel UtilsSpec RpmSpec LookupModel LookupSpec LookupProofs LookupProofs2 LookupProofs3.
Open Scope nat_scope.

(** C50.  Every lookup returns the first entry that covers the address, and nothing exactly when none
    does.  Ends of ranges are computed modulo 2^64. *)
Theorem C50_sharedlib : forall libs address, address <> 18446744073709551615%Z ->
  finds (fun l => gl_from l <= address <= gl_to l)%Z libs (sr_gdb_sharedlib_find_address libs address).
Proof. exact sharedlib_find. Qed.
(** The address 2^64-1 stands for "unknown" and is in no library. *)
Theorem C50_sharedlib_unknown : forall libs, sr_gdb_sharedlib_find_address libs 18446744073709551615 = None.
Proof. reflexivity. Qed.
Theorem C50_unstrip : forall entries address,
  finds (fun e => un_start e <= address < (un_start e + un_length e) mod 18446744073709551616)%Z entries (sr_unstrip_find_address entries address).
Proof. exact unstrip_find. Qed.
Theorem C50_unwind_offset : forall eh offset,
  finds (fun f => fde_start_address f <= offset < (fde_start_address f + fde_length f) mod 18446744073709551616)%Z eh (sr_elf_find_fde_for_offset eh offset).
Proof. exact fde_offset_find. Qed.
Theorem C50_unwind_address : forall eh address,
  finds (fun f => (fde_start_address f + fde_exec_base f) mod 18446744073709551616 <= address <
                  (fde_start_address f + fde_exec_base f + fde_length f) mod 18446744073709551616)%Z eh (sr_elf_find_fde_for_address eh address).
Proof. exact fde_address_find. Qed.
Theorem C50_unwind_start : forall eh start,
  finds (fun f => start = (fde_start_address f + fde_exec_base f) mod 18446744073709551616)%Z eh (sr_elf_find_fde_for_start_address eh start).
Proof. exact fde_start_find. Qed.
(** When no range reaches the end of the address space, these are the plain ranges. *)
Theorem C50_unstrip_plain : forall entries address,
  Forall (fun e => uint64 (un_start e) /\ 0 <= un_length e /\ un_start e + un_length e < 18446744073709551616)%Z entries ->
  finds (fun e => un_start e <= address < un_start e + un_length e)%Z entries (sr_unstrip_find_address entries address).
Proof.
  intros entries address H. eapply finds_ext; [|apply unstrip_find]. eapply Forall_impl; [|exact H]. intros e (H1 & H2 & H3).
  cbv beta. rewrite Z.mod_small by (unfold uint64 in H1; lia). reflexivity.
Qed.
Theorem C50_unwind_plain : forall eh address,
  Forall (fun f => 0 <= fde_start_address f /\ 0 <= fde_exec_base f /\ 0 <= fde_length f /\
                   fde_start_address f + fde_exec_base f + fde_length f < 18446744073709551616)%Z eh ->
  finds (fun f => fde_start_address f + fde_exec_base f <= address < fde_start_address f + fde_exec_base f + fde_length f)%Z eh (sr_elf_find_fde_for_address eh address).
Proof.
  intros eh address H. eapply finds_ext; [|apply fde_address_find]. eapply Forall_impl; [|exact H]. intros e (H1 & H2 & H3 & H4).
  cbv beta. rewrite !Z.mod_small by lia. reflexivity.
Qed.
(** The specification has one answer. *)
Theorem C50_unique : forall A (P : A -> Prop) l r r', finds P l r -> finds P l r' -> r = r'.
Proof. exact @finds_unique. Qed.
(** A range that ends at the end of the address space covers nothing. *)
Theorem C50_end_refuted : exists e address, (un_start e <= address < un_start e + un_length e)%Z /\ uint64 address /\ uint64 (un_start e) /\ uint64 (un_length e) /\
  sr_unstrip_find_address [e] address = None.
Proof. exists (mk_unstrip 18446744073709547520 4096 [] [] []), 18446744073709547521%Z. vm_compute. intuition discriminate. Qed.
Example C50_case : sr_unstrip_find_address [mk_unstrip 4096 16 [] (L "a") []; mk_unstrip 4100 16 [] (L "b") []; mk_unstrip 8192 16 [] (L "c") []] 4113 =
  Some (mk_unstrip 4100 16 [] (L "b") []) /\
  sr_unstrip_find_address [mk_unstrip 4096 16 [] (L "a") []; mk_unstrip 4100 16 [] (L "b") []] 4100 = Some (mk_unstrip 4096 16 [] (L "a") []).
Proof. split; vm_compute; reflexivity. Qed.

(** C51.  The callee list holds every call target once and ends with a zero. *)
Theorem C51_callees : forall slack ins r, sr_disasm_get_callee_addresses slack ins = Ok r -> callee_list ins r.
Proof. exact callees_ok. Qed.
(** Its block is big enough only if the allocator rounds up by 7 bytes, or a target is repeated: "the
    list fits its memory" is false for every function with different targets. *)
Theorem C51_callees_fit : forall slack ins, 7 <= slack -> exists r, sr_disasm_get_callee_addresses slack ins = Ok r.
Proof. exact callees_enough. Qed.
Theorem C51_callees_overflow : forall slack ins, slack < 7 -> sr_disasm_get_callee_addresses slack ins = UB <-> distinct_targets ins.
Proof. exact callees_overflow. Qed.
Theorem C51_callees_fit_refuted : exists ins, sr_disasm_get_callee_addresses 0 ins = UB.
Proof. exists [L "callq 0x4004f0"]. vm_compute. reflexivity. Qed.
(** Extending a graph terminates and adds exactly the functions reached from the start through
    functions not in the graph, each once, with their callee lists; the old graph stays as it was. *)
Theorem C51_extend : forall instructions eh_frame slack, 7 <= slack -> forall g s,
  match sr_callgraph_extend instructions slack eh_frame g s with
  | Ok g' => (in_graph g s \/ a_function instructions eh_frame s) /\
      exists added, g' = g ++ added /\ NoDup (map cg_address added) /\ Forall (entry_ok instructions eh_frame) added /\
        forall a, in_graph added a <-> reaches instructions eh_frame (in_graph g) s a
  | Fail => ~ in_graph g s /\ ~ a_function instructions eh_frame s
  | UB => False
  end.
Proof. exact extend_correct. Qed.
(** With no call to address 0, from a graph that is closed under calls (the empty one, say), the result
    is the graph and everything reachable. *)
Theorem C51_reachable : forall instructions eh_frame slack, 7 <= slack -> forall g s g',
  (forall a, ~ plain_calls instructions eh_frame a 0) ->
  (forall a b, in_graph g a -> plain_calls instructions eh_frame a b -> a_function instructions eh_frame b -> in_graph g b) ->
  sr_callgraph_extend instructions slack eh_frame g s = Ok g' ->
  forall a, in_graph g' a <-> in_graph g a \/ reachable instructions eh_frame s a.
Proof. exact extend_reachable. Qed.
(** A call to address 0 hides the calls after it. *)
Definition C51_eh := [mk_fde 0 16 8; mk_fde 16 16 8; mk_fde 32 16 8].
Definition C51_code (zero : bool) (a len : Z) : option (list str) :=
  if (a =? 16)%Z then Some ((if zero then [L "callq 0x0"] else []) ++ [L "mov %eax,%ebx"; L "callq 0x20 "; L "callq 0x50"; L "callq *%rax"])
  else if (a =? 32)%Z then Some [L "callq 0x10"; L "call 30"; L "callq 0x10"]
  else if (a =? 48)%Z then Some [] else None.
Theorem C51_reachable_refuted : exists instructions eh_frame g', sr_callgraph_extend instructions 7 eh_frame [] 16 = Ok g' /\
  reachable instructions eh_frame 16 32 /\ ~ in_graph g' 32.
Proof.
  exists (C51_code true), C51_eh. eexists. split; [vm_compute; reflexivity|]. split.
  - assert (F1 : is_function (C51_code true) C51_eh 16 [L "callq 0x0"; L "mov %eax,%ebx"; L "callq 0x20 "; L "callq 0x50"; L "callq *%rax"]).
    { exists (mk_fde 0 16 8). split; [exists [], [mk_fde 16 16 8; mk_fde 32 16 8]; repeat split; constructor|reflexivity]. }
    assert (F2 : a_function (C51_code true) C51_eh 32).
    { exists [L "callq 0x10"; L "call 30"; L "callq 0x10"], (mk_fde 16 16 8). split; [|reflexivity]. exists [mk_fde 0 16 8], [mk_fde 32 16 8]. repeat split. constructor; [vm_compute; discriminate|constructor]. }
    eapply reachable_call; [constructor; eexists; exact F1| |exact F2]. eexists. split; [exact F1|]. exists (L "callq 0x20 "). split; [cbn [In]; auto|].
    apply call_operand_iff. vm_compute. reflexivity.
  - intros (e & [<-|[]] & E). discriminate.
Qed.
Example C51_case : sr_callgraph_extend (C51_code false) 7 C51_eh [] 16 =
  Ok [mk_cg 16 [32; 80; 0]%Z; mk_cg 32 [16; 48; 0]%Z; mk_cg 48 [0]%Z].
Proof. vm_compute. reflexivity. Qed.
Example C51_case_again : sr_callgraph_extend (C51_code false) 7 C51_eh [mk_cg 32 [16; 48; 0]%Z] 16 =
  Ok [mk_cg 32 [16; 48; 0]%Z; mk_cg 16 [32; 80; 0]%Z].
Proof. vm_compute. reflexivity. Qed.
Example C51_case_none : sr_callgraph_extend (C51_code false) 7 C51_eh [] 80 = Fail.
Proof. vm_compute. reflexivity. Qed.
(** The whole program: one node per unwind entry, in order. *)
Theorem C51_compute : forall instructions slack eh, 7 <= slack ->
  match sr_callgraph_compute instructions slack eh with
  | Ok g => Forall2 (fun f e => cg_address e = fde_start_address f /\
              exists ins, instructions (fde_start_address f) (fde_length f) = Some ins /\ callee_list ins (cg_callees e)) eh g
  | Fail => Exists (fun f => instructions (fde_start_address f) (fde_length f) = None) eh
  | UB => False
  end.
Proof. exact compute_correct. Qed.
Example C51_case_compute : sr_callgraph_compute (C51_code false) 7 [mk_fde 0 16 8; mk_fde 0 48 8] = Ok [mk_cg 16 [32; 80; 0]%Z; mk_cg 48 [0]%Z].
Proof. vm_compute. reflexivity. Qed.

(** C53.  Converting a gdb stacktrace dereferences NULL exactly when some thread has a frame; without
    frames there is one core thread per gdb thread. *)
Theorem C53_frames_refuted : forall gdb text es, sr_unstrip_parse text = Ok es -> es <> [] ->
  sr_core_stacktrace_create (Some gdb) text = UB <-> exists t, In t (gs_threads gdb) /\ gt_frames t <> [].
Proof. exact create_ub. Qed.
Theorem C53_no_frames : forall gdb text es, sr_unstrip_parse text = Ok es -> es <> [] -> (forall t, In t (gs_threads gdb) -> gt_frames t = []) ->
  exists core, sr_core_stacktrace_create (Some gdb) text = Ok core /\ Forall2 (fun t c => length (ct_frames c) = length (gt_frames t)) (gs_threads gdb) (cs_threads core).
Proof. exact create_empty. Qed.
Definition C53_text := L "0x400000+0x1000 aabb@0x4 /bin/x /dbg/x x".
Example C53_case : sr_core_stacktrace_create (Some (mk_gdb_stacktrace [mk_gdb_thread 1 1 [gdb_frame_new]] None [] 0)) C53_text = UB /\
  exists core, sr_core_stacktrace_create (Some (mk_gdb_stacktrace [gdb_thread_new; gdb_thread_new] None [] 0)) C53_text = Ok core /\ length (cs_threads core) = 2.
Proof. split; [vm_compute; reflexivity|]. eexists. split; [vm_compute; reflexivity|reflexivity]. Qed.

(** C59.  Every text is parsed without leaving it; well-formed output gives one entry per line, other
    lines give none. *)
Theorem C59_total : forall text, exists es, sr_unstrip_parse text = Ok es.
Proof. intros text. exact (unstrip_total _ _ (le_n _)). Qed.
Theorem C59_output : forall text es, unstrip_output text es -> sr_unstrip_parse text = Ok es.
Proof. intros text es H. exact (unstrip_correct text es H _ (le_n _)). Qed.
(** "A broken line affects no other line" is false: a line with missing fields takes them from the
    next line, whose entry is lost. *)
Theorem C59_short_line_refuted : exists line e rest, unstrip_output rest [e] /\ ~ In nl line /\
  sr_unstrip_parse (line ++ nl :: rest) = Ok [mk_unstrip 4096 32 (L "aa") (L "0x2000+0x20") (L "f")].
Proof.
  exists (L "0x1000+0x20 aa"), (mk_unstrip 8192 32 (L "bb") (L "f") (L "m")), (L "0x2000+0x20 bb f d m"). split.
  - apply uo_last. exists (L "2000"), 8192%N, (L "20"), 32%N, [], (L "d"), []. split; [reflexivity|].
    split; [exact (horner_hex (L "2000") ltac:(discriminate) ltac:(repeat constructor))|]. split; [reflexivity|]. split; [reflexivity|].
    split; [exact (horner_hex (L "20") ltac:(discriminate) ltac:(repeat constructor))|]. split; [reflexivity|]. split; [reflexivity|].
    split; [repeat constructor; discriminate|]. split; [discriminate|].
    repeat (split; [split; [discriminate|repeat constructor; apply not_space; reflexivity]|]). split; [discriminate|intros []].
  - split; [vm_compute; intuition discriminate|vm_compute; reflexivity].
Qed.
Example C59_case : sr_unstrip_parse (L "0x400000+0x1000 aabb@0x4 /bin/x /dbg/x [exe] more" ++ nl :: L "# comment" ++ nl :: L "0x7f00+0x20 - [vdso] - linux-vdso" ++ [nl]) =
  Ok [mk_unstrip 4194304 4096 (L "aabb") (L "/bin/x") (L "[exe]"); mk_unstrip 32512 32 [] (L "[vdso]") (L "linux-vdso")].
Proof. vm_compute. reflexivity. Qed.

Print Assumptions C50_sharedlib.
Print Assumptions C50_sharedlib_unknown.
Print Assumptions C50_unstrip.
Print Assumptions C50_unwind_offset.
Print Assumptions C50_unwind_address.
Print Assumptions C50_unwind_start.
Print Assumptions C50_unstrip_plain.
Print Assumptions C50_unwind_plain.
Print Assumptions C50_unique.
Print Assumptions C50_end_refuted.
Print Assumptions C51_callees.
Print Assumptions C51_callees_fit.
Print Assumptions C51_callees_overflow.
Print Assumptions C51_callees_fit_refuted.
Print Assumptions C51_extend.
Print Assumptions C51_reachable.
Print Assumptions C51_reachable_refuted.
Print Assumptions C51_compute.
Print Assumptions C53_frames_refuted.
Print Assumptions C53_no_frames.
Print Assumptions C59_total.
Print Assumptions C59_output.
Print Assumptions C59_short_line_refuted.
