(** * C62: shared libraries of gdb stack traces; whole gdb stack traces. *)
From Verif Require Import Base Types UtilsSpec UtilsProofs RpmSpec RpmProofs LookupSpec LookupProofs ParseSpec ParseProofs KoopsSpec KoopsProofs GdbParseModel GdbParseSpec GdbParseProofs6 GdbParseProofs7 P_Gdb GdbLibModel GdbLibSpec GdbLibProofs GdbLibProofs2.
Open Scope nat_scope.

(** The list of libraries is exactly the one of the first section of the text. *)
Theorem C62_section_exact s r : find_sharedlib_section_start s = Some r <-> section s r.
Proof. exact (section_iff s r). Qed.
Theorem C62_libraries_exact s ls : sr_gdb_sharedlib_parse s = Ok ls <-> libs_text s ls.
Proof. exact (proj1 (libs_exact s) ls). Qed.
(** The parser reads beyond the text exactly if the text ends with the name of a library; it never fails. *)
Theorem C62_libraries_off s : sr_gdb_sharedlib_parse s = UB <-> libs_off s.
Proof. exact (proj2 (libs_exact s)). Qed.
Theorem C62_libraries_total s : sr_gdb_sharedlib_parse s <> Fail.
Proof. destruct (libs_cases s) as [(ls & _ & ->)|[_ ->]]; discriminate. Qed.
(** A list in the usual form, of any length, is returned in order. *)
Theorem C62_usual_libraries pre lines libs rest : at_line_start pre -> (forall a b, pre <> a ++ L "From" ++ b) -> Forall2 library_line_of lines libs -> other_line rest ->
  sr_gdb_sharedlib_parse (pre ++ title_words ++ nl :: concat (map (fun l => l ++ [nl]) lines) ++ rest) = Ok libs.
Proof. exact (usual_libs pre lines libs rest). Qed.
(** The whole parser: crash frame, threads and libraries, and nothing else. *)
Theorem C62_trace_exact s t r : sr_gdb_stacktrace_parse s = Ok (t, r) <-> whole_trace s t r.
Proof. exact (proj1 (whole_exact s) t r). Qed.
Theorem C62_trace_off s : sr_gdb_stacktrace_parse s = UB <-> whole_off s.
Proof. exact (proj2 (whole_exact s)). Qed.
Theorem C62_usual_trace before lines libs rest crash threads :
  let text := before ++ title_words ++ nl :: concat (map (fun l => l ++ [nl]) lines) ++ rest in
  usual_trace text crash threads -> at_line_start before -> (forall a b, before <> a ++ L "From" ++ b) -> Forall2 library_line_of lines libs -> other_line rest ->
  sr_gdb_stacktrace_parse text = Ok (mk_gdb_stacktrace threads crash libs 4294967295, []).
Proof.
  intros text H1 H2 H3 H4 H5. unfold sr_gdb_stacktrace_parse, text. rewrite (usual_libs before lines libs rest H2 H3 H4 H5). cbn [bind]. fold text.
  rewrite (usual_trace_parses _ _ _ H1). reflexivity.
Qed.

(** ** Disagreements *)
Definition unfinished : str := title_words ++ nl :: L "0x1  0x2  Yes  /lib/a.so".
Theorem C62_off_refuted : sr_gdb_sharedlib_parse unfinished = UB.
Proof. vm_compute. reflexivity. Qed.
(** After an empty line, a line that starts with "No" or "Yes" is a library. *)
Definition answer : str := title_words ++ nl :: L "0x1  0x2  Yes  /lib/a.so" ++ nl :: nl :: L "No symbol table is loaded." ++ [nl].
Theorem C62_answer_refuted : exists l, sr_gdb_sharedlib_parse answer = Ok [mk_gdb_sharedlib 1 2 0 (Some (L "/lib/a.so")); l] /\ gl_soname l = Some (L "symbol table is loaded.") /\ gl_symbols l = 1%Z.
Proof. eexists. split; vm_compute; auto. Qed.
(** A library without a name takes the next line as its name. *)
Definition no_name : str := title_words ++ nl :: L "0x1  0x2  No" ++ nl :: L "0x3  0x4  Yes  /lib/a.so" ++ [nl].
Theorem C62_no_name_refuted : sr_gdb_sharedlib_parse no_name = Ok [mk_gdb_sharedlib 1 2 1 (Some (L "0x3  0x4  Yes  /lib/a.so"))].
Proof. vm_compute. reflexivity. Qed.

(** ** The hypotheses are met *)
Definition lib_a : str := L "0x7f10  0x7fff  Yes (*)     /lib64/libc.so.6".
Definition lib_b : str := L "0x10  0x20  No          /usr/lib/lib b.so".
Lemma lib_a_line : library_line_of lib_a (mk_gdb_sharedlib 32528 32767 2 (Some (L "/lib64/libc.so.6"))).
Proof.
  exists (L "7f10"), (L "7fff"), (L "  "), (L "  "), (L "     "), (L "Yes (*)"), (L "/lib64/libc.so.6"), 32528%N, 32767%N, 2%Z.
  split; [reflexivity|]. split; [hex 32528%N|]. split; [hex 32767%N|]. do 3 (split; [split; [discriminate|repeat constructor]|]). split; [right; right; auto|].
  split; [intros H; apply mem_In in H; discriminate H|]. split; [discriminate|]. split; [intros H; apply (is_space_iff "/") in H; discriminate H|]. split; [intros [H _]; discriminate H|reflexivity].
Qed.
Lemma lib_b_line : library_line_of lib_b (mk_gdb_sharedlib 16 32 1 (Some (L "/usr/lib/lib b.so"))).
Proof.
  exists (L "10"), (L "20"), (L "  "), (L "  "), (L "          "), (L "No"), (L "/usr/lib/lib b.so"), 16%N, 32%N, 1%Z.
  split; [reflexivity|]. split; [hex 16%N|]. split; [hex 32%N|]. do 3 (split; [split; [discriminate|repeat constructor]|]). split; [right; left; auto|].
  split; [intros H; apply mem_In in H; discriminate H|]. split; [discriminate|]. split; [intros H; apply (is_space_iff "/") in H; discriminate H|]. split; [intros [H _]; discriminate H|reflexivity].
Qed.
Definition before_libs : str := whole ++ [nl].
Definition tail_text : str := L "(*): Shared library is missing debugging information." ++ [nl].
Definition full : str := before_libs ++ title_words ++ nl :: concat (map (fun l => l ++ [nl]) [lib_a; lib_b]) ++ tail_text.
Lemma no_word w s : existsb (fun k => starts_with w (skipn k s)) (seq 0 (S (length s))) = false -> forall a b, s <> a ++ w ++ b.
Proof.
  intros H a b E. assert (X : existsb (fun k => starts_with w (skipn k s)) (seq 0 (S (length s))) = true); [|congruence].
  apply existsb_exists. exists (length a). split; [apply in_seq; rewrite E, app_length; lia|]. rewrite E, skipn_app_exact. apply starts_with_iff. eexists. reflexivity.
Qed.
Example C62_usual_trace_nonvacuous :
  usual_trace full (Some frame_a) [mk_gdb_thread 2 42 [frame_a; frame_b]; mk_gdb_thread 1 41 [frame_b]] /\ at_line_start before_libs /\ (forall a b, before_libs <> a ++ L "From" ++ b) /\
  Forall2 library_line_of [lib_a; lib_b] [mk_gdb_sharedlib 32528 32767 2 (Some (L "/lib64/libc.so.6")); mk_gdb_sharedlib 16 32 1 (Some (L "/usr/lib/lib b.so"))] /\ other_line tail_text.
Proof.
  split; [|split; [right; exists whole; reflexivity|split; [apply no_word; vm_compute; reflexivity|split]]].
  - replace full with (whole ++ nl :: title_words ++ nl :: concat (map (fun l => l ++ [nl]) [lib_a; lib_b]) ++ tail_text) by (unfold full, before_libs; rewrite <- app_assoc; reflexivity).
    apply whole_with, quiet_list. vm_compute. reflexivity.
  - constructor; [exact lib_a_line|]. constructor; [exact lib_b_line|constructor].
  - split; [intros H; apply is_space_iff in H; discriminate H|]. split; [reflexivity|]. intros H. apply mem_In in H. discriminate H.
Qed.
Example C62_usual_libraries_nonvacuous : sr_gdb_sharedlib_parse full = Ok [mk_gdb_sharedlib 32528 32767 2 (Some (L "/lib64/libc.so.6")); mk_gdb_sharedlib 16 32 1 (Some (L "/usr/lib/lib b.so"))].
Proof. destruct C62_usual_trace_nonvacuous as (_ & H1 & H2 & H3 & H4). exact (C62_usual_libraries _ _ _ _ H1 H2 H3 H4). Qed.
Example C62_off_nonvacuous : libs_off unfinished /\ whole_off unfinished.
Proof. assert (libs_off unfinished) by (apply C62_libraries_off; vm_compute; reflexivity). split; [assumption|left; assumption]. Qed.

Print Assumptions C62_section_exact.
Print Assumptions C62_libraries_exact.
Print Assumptions C62_libraries_off.
Print Assumptions C62_libraries_total.
Print Assumptions C62_usual_libraries.
Print Assumptions C62_trace_exact.
Print Assumptions C62_trace_off.
Print Assumptions C62_usual_trace.
Print Assumptions C62_off_refuted.
Print Assumptions C62_answer_refuted.
Print Assumptions C62_no_name_refuted.
