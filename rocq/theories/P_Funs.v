(** C44: the function/library list of a gdb thread. *)
From Verif Require Import Base Types JavaParseSpec FunsModel FunsSpec FunsProofs.
Open Scope nat_scope.

(** C44. Reading a list gives exactly the lines it has, in order, numbered from 0. *)
Theorem C44_parse_exact : forall s t, sr_gdb_thread_parse_funs (Some s) = Ok t <->
  exists l, funs s l /\ (Z.of_nat (length l) < 2147483648)%Z /\ t = mk_gdb_thread 4294967295 4294967295 (numbered 0 l).
Proof. exact parse_exact. Qed.
(** C44. Reading fails to be defined exactly when there are more lines than an int can count. *)
Theorem C44_undefined_exactly : forall s, sr_gdb_thread_parse_funs (Some s) = UB <->
  exists l, funs s l /\ (2147483648 <= Z.of_nat (length l))%Z.
Proof. exact parse_ub. Qed.
(** C44. Any text below 4 GiB is read. *)
Theorem C44_safe : forall s, (Z.of_nat (length s) < 4294967296)%Z -> exists t, sr_gdb_thread_parse_funs (Some s) = Ok t.
Proof. exact parse_safe. Qed.
(** C44. The names come back; frames without a function name are left out. *)
Theorem C44_roundtrip : forall t, Forall listable (named t) -> (Z.of_nat (length (named t)) < 2147483648)%Z ->
  exists t', sr_gdb_thread_parse_funs (Some (sr_gdb_thread_format_funs t)) = Ok t' /\ named t' = named t /\ length (gt_frames t') = length (named t).
Proof. exact roundtrip. Qed.
(** C44. Not all names come back: an empty function name, an empty library name and a space without a
    library are read differently. *)
Theorem C44_empty_name_refuted : exists t t', named t = [([], Some (L "libc"))] /\
  sr_gdb_thread_parse_funs (Some (sr_gdb_thread_format_funs t)) = Ok t' /\ named t' = [(L " libc", None)].
Proof.
  exists (mk_gdb_thread 1 1 [mk_gdb_frame (Some []) None 0 None 0 false 0 (Some (L "libc"))]).
  eexists. split; [reflexivity|]. split; reflexivity.
Qed.
Theorem C44_empty_names_refuted : exists t t', named t = [([], None); (L "main", None)] /\
  sr_gdb_thread_parse_funs (Some (sr_gdb_thread_format_funs t)) = Ok t' /\ named t' = [(nl :: L "main", None)].
Proof.
  exists (mk_gdb_thread 1 1 [mk_gdb_frame (Some []) None 0 None 0 false 0 None; mk_gdb_frame (Some (L "main")) None 0 None 0 false 0 None]).
  eexists. split; [reflexivity|]. split; reflexivity.
Qed.
Theorem C44_empty_library_refuted : exists t t', named t = [(L "main", Some [])] /\
  sr_gdb_thread_parse_funs (Some (sr_gdb_thread_format_funs t)) = Ok t' /\ named t' = [(L "main", None)].
Proof.
  exists (mk_gdb_thread 1 1 [mk_gdb_frame (Some (L "main")) None 0 None 0 false 0 (Some [])]).
  eexists. split; [reflexivity|]. split; reflexivity.
Qed.
Theorem C44_space_refuted : exists t t', named t = [(L "operator new", None)] /\
  sr_gdb_thread_parse_funs (Some (sr_gdb_thread_format_funs t)) = Ok t' /\ named t' = [(L "operator", Some (L "new"))].
Proof.
  exists (mk_gdb_thread 1 1 [mk_gdb_frame (Some (L "operator new")) None 0 None 0 false 0 None]).
  eexists. split; [reflexivity|]. split; reflexivity.
Qed.

Example C44_parse_nonvacuous : exists t, sr_gdb_thread_parse_funs (Some (L "operator new libstdc++" ++ nl :: L "main" ++ nl :: L "cut")) = Ok t /\
  named t = [(L "operator new", Some (L "libstdc++")); (L "main", None)].
Proof. eexists. split; reflexivity. Qed.
Example C44_roundtrip_nonvacuous : exists t, Forall listable (named t) /\ (Z.of_nat (length (named t)) < 2147483648)%Z /\
  named t = [(L "operator new", Some (L "libstdc++")); (L "main", None)] /\ length (gt_frames t) = 3.
Proof.
  exists (mk_gdb_thread 1 1 [mk_gdb_frame (Some (L "operator new")) None 0 None 0 false 0 (Some (L "libstdc++"));
    mk_gdb_frame None None 1 None 0 true 0 None; mk_gdb_frame (Some (L "main")) None 2 None 0 false 0 None]).
  split; [|split; [reflexivity|split; reflexivity]]. unfold listable, plain_name.
  apply Forall_cons; [|apply Forall_cons; [|apply Forall_nil]]; cbn [fst snd];
  repeat split; try discriminate; intro H; repeat (destruct H as [H|H]; [discriminate|]); destruct H.
Qed.
Print Assumptions C44_parse_exact.
Print Assumptions C44_undefined_exactly.
Print Assumptions C44_safe.
Print Assumptions C44_roundtrip.
Print Assumptions C44_empty_name_refuted.
Print Assumptions C44_empty_names_refuted.
Print Assumptions C44_empty_library_refuted.
Print Assumptions C44_space_refuted.
