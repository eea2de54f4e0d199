(** * Properties C23-C27: normalization. *)
From Verif Require Import Base Types NormTables NormModel NormSpec NormProofs NormProofs2.
Open Scope Z_scope.

(** C23.  Normalizing a gdb thread selects frames in order and changes nothing in them except the
    function name, which only loses known prefixes and instruction-set suffixes. *)
Theorem C23_selection : forall l, exists m, subseq m l /\ Forall2 gdb_canonical m (sr_normalize_gdb_frames l).
Proof. exact gdb_selection. Qed.
Theorem C23_no_recursion : forall l, no_neighbours gdb_recursive (sr_normalize_gdb_frames l).
Proof. exact gdb_no_recursion. Qed.
(** No frame of the removal tables and no exit frame is left. *)
Theorem C23_nothing_removable : forall l, Forall (fun f => ~ gdb_boring f) (sr_normalize_gdb_frames l).
Proof. exact gdb_nothing_boring. Qed.
(** Everything up to an exit frame, and everything up to a frame of the "with everything above" table, is gone. *)
Theorem C23_below_exit : forall l1 e l2, gdb_exit e -> sr_normalize_gdb_frames (l1 ++ e :: l2) = sr_normalize_gdb_frames l2.
Proof. exact gdb_below_exit. Qed.
Theorem C23_below_above : forall l1 e l2, listed above_table (gf_function_name e) (gf_source_file e) ->
  sr_normalize_gdb_frames (l1 ++ e :: l2) = sr_normalize_gdb_frames l2.
Proof. exact gdb_below_above. Qed.
(** A merely removable frame disappears alone. *)
Theorem C23_removed_alone : forall l1 e l2, simple_name (gf_function_name e) ->
  listed removable_table (gf_function_name e) (gf_source_file e) ->
  ~ listed above_table (gf_function_name e) (gf_source_file e) -> ~ gdb_exit e ->
  sr_normalize_gdb_frames (l1 ++ e :: l2) = sr_normalize_gdb_frames (l1 ++ l2).
Proof. exact gdb_removed_alone. Qed.
(** Direct recursion collapses into its first call. *)
Theorem C23_recursion_collapsed : forall l1 a b l2,
  simple_name (gf_function_name a) -> simple_name (gf_function_name b) -> ~ gdb_boring a -> ~ gdb_boring b ->
  gf_function_name a = gf_function_name b -> gf_function_name a <> Some (L "??") ->
  sr_normalize_gdb_frames (l1 ++ a :: b :: l2) = sr_normalize_gdb_frames (l1 ++ a :: l2).
Proof. exact gdb_recursion_collapsed. Qed.
(** A frame at address 0 without a known function is dropped from either end. *)
Theorem C23_null_ends : forall e l, (forall f, In f (e :: l) -> simple_name (gf_function_name f) /\ ~ gdb_boring f) ->
  gdb_null e -> l <> [] -> ends_not gdb_null l ->
  sr_normalize_gdb_frames (e :: l) = sr_normalize_gdb_frames l /\
  sr_normalize_gdb_frames (l ++ [e]) = sr_normalize_gdb_frames l.
Proof. exact gdb_null_ends. Qed.
(** The known prefixes and suffixes really are removed. *)
Theorem C23_prefix_dropped : forall l1 e l2 p q r, dropped_prefix p q -> gf_function_name e = Some (p ++ r) ->
  gf_source_file e <> None -> simple_name (Some (q ++ r)) -> ~ gdb_exit e ->
  sr_normalize_gdb_frames (l1 ++ e :: l2) = sr_normalize_gdb_frames (l1 ++ gdb_named e (q ++ r) :: l2).
Proof. exact gdb_prefix_dropped. Qed.
Theorem C23_variant_renamed : forall l1 e l2 func suf file, In func arch_functions -> In suf arch_suffixes ->
  gf_function_name e = Some (L "__" ++ func ++ suf) -> gf_source_file e = Some file -> arch_file func file -> ~ gdb_exit e ->
  sr_normalize_gdb_frames (l1 ++ e :: l2) = sr_normalize_gdb_frames (l1 ++ gdb_named e func :: l2).
Proof. exact gdb_arch_renamed. Qed.
(** A thread in which nothing calls for a change is left as it is. *)
Theorem C23_keeps : forall l,
  (forall f, In f l -> simple_name (gf_function_name f) /\ ~ gdb_boring f) -> ends_not gdb_null l ->
  no_neighbours gdb_recursive l -> sr_normalize_gdb_frames l = l.
Proof. exact gdb_keeps. Qed.
(** A second normalization changes nothing, unless a name had two prefixes or an end frame is still null. *)
Theorem C23_idempotent : forall l,
  (forall f, In f (sr_normalize_gdb_frames l) -> gf_source_file f <> None -> prefix_free (gf_function_name f)) ->
  ends_not gdb_null (sr_normalize_gdb_frames l) ->
  sr_normalize_gdb_frames (sr_normalize_gdb_frames l) = sr_normalize_gdb_frames l.
Proof. exact gdb_idempotent. Qed.
(** In those cases it does: "__GI___GI_work", and two null frames on top. *)
Theorem C23_idempotent_refuted : exists l1 l2,
  sr_normalize_gdb_frames (sr_normalize_gdb_frames l1) <> sr_normalize_gdb_frames l1 /\
  sr_normalize_gdb_frames (sr_normalize_gdb_frames l2) <> sr_normalize_gdb_frames l2.
Proof. exact gdb_idempotent_fails. Qed.
(** The real tables at work: raise and abort are cut with what is above them, the instruction-set
    variant and the prefix go, recursion collapses, the null frame at the end goes. *)
Definition c23_thread : list gdb_frame :=
  [fr "raise" "raise.c" 11; fr "abort" "abort.c" 12; fr "__memcpy_ssse3" "../sysdeps/x86_64/memcpy.S" 13;
   fr "copy" "copy.c" 14; fr "copy" "copy.c" 15; fr "IA__g_main_loop" "gmain.c" 16; fr "main" "main.c" 17; fr "??" "" 0].
Example C23_case : map gf_function_name (sr_normalize_gdb_frames c23_thread) =
  [Some (L "memcpy"); Some (L "copy"); Some (L "g_main_loop"); Some (L "main")].
Proof. vm_compute. reflexivity. Qed.
Example C23_hypotheses :
  gdb_exit (fr "abort" "abort.c" 12) /\
  listed above_table (Some (L "__assert_fail")) (Some (L "assert.c")) /\
  (simple_name (Some (L "g_log")) /\ listed removable_table (Some (L "g_log")) (Some (L "gmessages.c")) /\
   ~ listed above_table (Some (L "g_log")) (Some (L "gmessages.c")) /\ ~ gdb_exit (fr "g_log" "gmessages.c" 1)) /\
  (let l := [fr "work" "w.c" 5; fr "??" "" 6; fr "??" "" 7; fr "main" "m.c" 8] in
   (forall f, In f (fr "??" "" 0 :: l) -> simple_name (gf_function_name f) /\ ~ gdb_boring f) /\ ends_not gdb_null l /\
   no_neighbours gdb_recursive l).
Proof.
  split; [apply gdb_exit_iff; vm_compute; reflexivity|].
  split; [apply any_call_iff; vm_compute; reflexivity|].
  split.
  - split; [apply simple_b_ok; vm_compute; reflexivity|]. split; [apply removable_iff; vm_compute; reflexivity|].
    split; [rewrite <- any_call_iff; vm_compute; discriminate|rewrite <- gdb_exit_iff; vm_compute; discriminate].
  - cbv zeta. split; [|split].
    + intros f I. cbn [In] in I. repeat destruct I as [<-|I];
        try (split; [apply simple_b_ok; vm_compute; reflexivity|apply gdb_boring_b_ok; vm_compute; reflexivity]). destruct I.
    + split.
      * intros x r E. injection E as <- _. rewrite <- gdb_null_iff. vm_compute. discriminate.
      * intros r x E. assert (X : last (r ++ [x]) x = fr "main" "m.c" 8) by now rewrite <- E. rewrite last_last in X. subst x.
        rewrite <- gdb_null_iff. vm_compute. discriminate.
    + intros l1 a b l2 E. destruct l1 as [|? [|? [|? [|? l1]]]]; cbn in E; injection E; intros; subst; try discriminate;
        try (unfold gdb_recursive; cbn; intuition congruence). destruct l1; discriminate.
Qed.
(** Hypotheses of the renaming and collapsing theorems. *)
Example C23_hypotheses2 :
  (dropped_prefix (L "IA__g_") (L "g_") /\ simple_name (Some (L "g_" ++ L "free_all")) /\ ~ gdb_exit (fr "IA__g_free_all" "gmem.c" 1)) /\
  (In (L "strlen") arch_functions /\ In (L "_sse42") arch_suffixes /\ arch_file (L "strlen") (L "/usr/lib/libc.so.6")) /\
  (simple_name (Some (L "copy")) /\ ~ gdb_boring (fr "copy" "copy.c" 14) /\ ~ gdb_boring (fr "copy" "copy.c" 15)).
Proof.
  split; [|split].
  - split; [constructor|]. split; [apply simple_b_ok; vm_compute; reflexivity|]. rewrite <- gdb_exit_iff. vm_compute. discriminate.
  - split; [unfold arch_functions; cbn [In]; tauto|]. split; [unfold arch_suffixes; cbn [In]; tauto|].
    right. right. apply strstr_iff. vm_compute. reflexivity.
  - split; [apply simple_b_ok; vm_compute; reflexivity|]. split; apply gdb_boring_b_ok; vm_compute; reflexivity.
Qed.

(** C24.  The same for core threads; file names are anonymised as well. *)
Theorem C24_selection : forall l, exists m, subseq m l /\ Forall2 core_canonical m (sr_normalize_core_frames l).
Proof. exact core_selection. Qed.
Theorem C24_anonymous : forall l, Forall (fun f => anonymous (cf_file_name f)) (sr_normalize_core_frames l).
Proof. exact core_anonymous. Qed.
Theorem C24_no_recursion : forall l, no_neighbours core_recursive (sr_normalize_core_frames l).
Proof. exact core_no_recursion. Qed.
Theorem C24_nothing_removable : forall l, Forall (fun f => ~ core_boring f) (sr_normalize_core_frames l).
Proof. exact core_nothing_boring. Qed.
Theorem C24_below_exit : forall l1 e l2, core_exit e -> sr_normalize_core_frames (l1 ++ e :: l2) = sr_normalize_core_frames l2.
Proof. exact core_below_exit. Qed.
Theorem C24_below_above : forall l1 e l2, listed above_table (cf_function_name e) (cf_file_name e) ->
  sr_normalize_core_frames (l1 ++ e :: l2) = sr_normalize_core_frames l2.
Proof. exact core_below_above. Qed.
Theorem C24_removed_alone : forall l1 e l2, simple_name (cf_function_name e) ->
  listed removable_table (cf_function_name e) (cf_file_name e) ->
  ~ listed above_table (cf_function_name e) (cf_file_name e) -> ~ core_exit e ->
  sr_normalize_core_frames (l1 ++ e :: l2) = sr_normalize_core_frames (l1 ++ l2).
Proof. exact core_removed_alone. Qed.
Theorem C24_recursion_collapsed : forall l1 a b l2,
  simple_name (cf_function_name a) -> simple_name (cf_function_name b) -> ~ core_boring a -> ~ core_boring b ->
  cf_function_name a = cf_function_name b -> cf_function_name a <> None ->
  sr_normalize_core_frames (l1 ++ a :: b :: l2) = sr_normalize_core_frames (l1 ++ a :: l2).
Proof. exact core_recursion_collapsed. Qed.
Theorem C24_null_ends : forall e l, (forall f, In f (e :: l) -> simple_name (cf_function_name f) /\ ~ core_boring f) ->
  core_null e -> l <> [] -> ends_not core_null l ->
  sr_normalize_core_frames (e :: l) = sr_normalize_core_frames l /\
  sr_normalize_core_frames (l ++ [e]) = sr_normalize_core_frames l.
Proof. exact core_null_ends. Qed.
Theorem C24_prefix_dropped : forall l1 e l2 p q r, dropped_prefix p q -> cf_function_name e = Some (p ++ r) ->
  simple_name (Some (q ++ r)) -> ~ core_exit e ->
  sr_normalize_core_frames (l1 ++ e :: l2) = sr_normalize_core_frames (l1 ++ core_named e (q ++ r) :: l2).
Proof. exact core_prefix_dropped. Qed.
Theorem C24_variant_renamed : forall l1 e l2 func suf file, In func arch_functions -> In suf arch_suffixes ->
  cf_function_name e = Some (L "__" ++ func ++ suf) -> cf_file_name e = Some file -> arch_file func file -> ~ core_exit e ->
  sr_normalize_core_frames (l1 ++ e :: l2) = sr_normalize_core_frames (l1 ++ core_named e func :: l2).
Proof.
  intros l1 e l2 func suf file H1 H2 H3 H4 H5 H6. unfold core_named. rewrite H4.
  exact (core_arch_renamed l1 e l2 func suf file H1 H2 H3 H4 H5 H6).
Qed.
Theorem C24_keeps : forall l,
  (forall f, In f l -> simple_name (cf_function_name f) /\ ~ core_boring f) -> ends_not core_null l ->
  no_neighbours core_recursive l -> Forall2 core_canonical l (sr_normalize_core_frames l).
Proof. exact core_keeps. Qed.
Theorem C24_idempotent : forall l,
  (forall f, In f (sr_normalize_core_frames l) -> prefix_free (cf_function_name f)) ->
  ends_not core_null (sr_normalize_core_frames l) ->
  sr_normalize_core_frames (sr_normalize_core_frames l) = sr_normalize_core_frames l.
Proof. exact core_idempotent. Qed.
Theorem C24_idempotent_refuted : exists l1 l2,
  sr_normalize_core_frames (sr_normalize_core_frames l1) <> sr_normalize_core_frames l1 /\
  sr_normalize_core_frames (sr_normalize_core_frames l2) <> sr_normalize_core_frames l2.
Proof. exact core_idempotent_fails. Qed.
Definition c24_thread : list core_frame :=
  [cfr (Some (L "raise")) "/lib64/libc.so.6" 11; cfr None "" 0; cfr (Some (L "__GI_work")) "/home/jane/bin/tool" 12;
   cfr (Some (L "work")) "/home/jane/bin/tool" 13; cfr None "/home/jane/bin/tool" 14; cfr (Some (L "main")) "/home/jane/bin/tool" 15].
Example C24_case : sr_normalize_core_frames c24_thread =
  [cfr (Some (L "work")) "/home/anonymized/bin/tool" 12; cfr None "/home/anonymized/bin/tool" 14;
   cfr (Some (L "main")) "/home/anonymized/bin/tool" 15].
Proof. vm_compute. reflexivity. Qed.
Example C24_hypotheses : core_exit (cfr (Some (L "exit")) "" 1) /\
  listed above_table (Some (L "malloc_printerr")) (Some (L "/lib64/libc.so.6")) /\
  listed removable_table (Some (L "g_log")) (Some (L "/lib64/libglib-2.0.so")) /\
  ~ core_exit (cfr (Some (L "g_log")) "/lib64/libglib-2.0.so" 1) /\
  (let m := sr_normalize_core_frames c24_thread in
   (forall f, In f m -> prefix_free (cf_function_name f)) /\ ends_not core_null m).
Proof.
  split; [apply core_exit_iff; vm_compute; reflexivity|].
  split; [apply any_call_iff; vm_compute; reflexivity|].
  split; [apply removable_iff; vm_compute; reflexivity|].
  split; [rewrite <- core_exit_iff; vm_compute; discriminate|].
  cbv zeta. rewrite C24_case. split.
  - intros f I s r E. cbn [In] in I. repeat destruct I as [<-|I]; cbn in E; try discriminate E; try (destruct I); injection E as <-;
      repeat split; intro X; discriminate X.
  - split.
    + intros x r E. injection E as <- _. rewrite <- core_null_iff. vm_compute. discriminate.
    + intros r x E. match type of E with ?a = _ => assert (X : last (r ++ [x]) x = last a x) by now rewrite <- E end.
      rewrite last_last in X. cbn [last] in X. subst x. rewrite <- core_null_iff. vm_compute. discriminate.
Qed.

(** C25.  A kernel oops loses exactly its blacklisted in-kernel frames, after names are cut at the first dot. *)
Theorem C25_exact : forall l, exists m r, Forall2 cut_name l m /\
  sr_normalize_koops_frames l = Ok r /\ kept (fun f => ~ koops_boring f) m r.
Proof. exact koops_normalize_ok. Qed.
Theorem C25_idempotent : forall l r, sr_normalize_koops_frames l = Ok r -> sr_normalize_koops_frames r = Ok r.
Proof. exact koops_idempotent. Qed.
(** Binary search finds a name exactly if it is in the list, for every sorted list, and NULL never;
    the list in the code is sorted. *)
Theorem C25_search : forall base key, increasing base ->
  exists b, bsearch key base = Ok b /\ (b = true <-> exists n, key = Some n /\ In n base).
Proof. exact bsearch_correct. Qed.
Theorem C25_sorted : increasing koops_blacklist.
Proof. exact blacklist_increasing. Qed.
Definition kfr (name module : option str) : koops_frame :=
  mk_koops_frame 1 true name 2 3 module 4 None 5 6 None None.
Example C25_case : sr_normalize_koops_frames
  [kfr (Some (L "warn_slowpath_null")) None; kfr (Some (L "kthread.part.0")) None; kfr (Some (L "kthread.part.0")) (Some (L "ext4"));
   kfr None None; kfr (Some (L "do_work.isra.3")) None] =
  Ok [kfr (Some (L "kthread")) (Some (L "ext4")); kfr None None; kfr (Some (L "do_work")) None].
Proof. vm_compute. reflexivity. Qed.

(** C26.  Only unknown frames are renamed, in pairs; the k-th pair gets the k-th name; the neighbours
    of a pair are (in the result) the same known functions; nothing else changes.  Every pair of unknown
    frames with the same known neighbours has at least one of its frames named. *)
Theorem C26_pairs : forall l1 l2 l1' l2', sr_normalize_gdb_paired_unknown_function_names l1 l2 = (l1', l2') ->
  exists ps, pairing unknown_name l1 l2 l1' l2' ps /\
    forall p q, eligible l1 l2 p q -> In p (map fst ps) \/ In q (map snd ps).
Proof. exact paired_ok. Qed.
(** The names of different pairs are different, and none is the name of an unknown function. *)
Theorem C26_names : (forall a b, unknown_name a = unknown_name b -> a = b) /\ forall k, unknown_name k <> Some (L "??").
Proof. exact (conj unknown_name_inj unknown_not_anon). Qed.
(** The common name is not fresh: a frame already called so is not avoided. *)
Theorem C26_fresh_refuted : exists l1 l2 l1' l2' f g, sr_normalize_gdb_paired_unknown_function_names l1 l2 = (l1', l2') /\
  nth_error l1' 1 = Some f /\ nth_error l2 3 = Some g /\ gf_function_name f = gf_function_name g /\ gf_address f <> gf_address g.
Proof.
  exists [fr "a" "" 1; fr "??" "" 2; fr "b" "" 3], [fr "a" "" 1; fr "??" "" 2; fr "b" "" 3; fr "__unknown_function_0" "" 9].
  do 4 eexists. split; [vm_compute; reflexivity|]. split; [reflexivity|]. split; [reflexivity|]. split; [reflexivity|discriminate].
Qed.
Example C26_case : sr_normalize_gdb_paired_unknown_function_names
  [fr "??" "" 1; fr "a" "" 2; fr "??" "" 3; fr "b" "" 4; fr "??" "" 5]
  [fr "??" "" 7; fr "a" "" 8; fr "??" "" 9; fr "b" "" 4] =
  ([fr "__unknown_function_0" "" 1; fr "a" "" 2; fr "__unknown_function_1" "" 3; fr "b" "" 4; fr "??" "" 5],
   [fr "__unknown_function_0" "" 7; fr "a" "" 8; fr "__unknown_function_1" "" 9; fr "b" "" 4]).
Proof. vm_compute. reflexivity. Qed.

(** C27.  The optimised copy: frames get the base name of the first library that covers their address,
    the thread is normalized, frames without a name and "main" are left out, and at most [n] of the
    topmost remain if [n > 0].  Undefined only if a library without a name was supplied. *)
Theorem C27_optimized : forall t libs n, match sr_gdb_thread_get_optimized t libs n with
  | Ok r => gt_number r = gt_number t /\ gt_tid r = gt_tid t /\
      exists m k rest, Forall2 (labelled libs) (gt_frames t) m /\
        kept (fun f => gf_function_name f <> None /\ gf_function_name f <> Some (L "main")) (sr_normalize_gdb_frames m) k /\
        k = gt_frames r ++ rest /\
        (n <= 0 -> rest = []) /\ (0 < n -> Z.of_nat (length (gt_frames r)) = Z.min n (Z.of_nat (length k)))
  | Fail => False
  | UB => exists x, In x libs /\ gl_soname x = None
  end.
Proof. exact optimized_ok. Qed.
Example C27_case :
  let lib := mk_gdb_sharedlib 10 20 0 (Some (L "/usr/lib64/libfoo.so.1.2")) in
  sr_gdb_thread_get_optimized (mk_gdb_thread 1 77 [fr "abort" "abort.c" 1; fr "a" "" 15; mk_gdb_frame None None 0 None 1 true 16 None;
     fr "b" "" 21; fr "main" "" 11]) [lib] 1 =
  Ok (mk_gdb_thread 1 77 [mk_gdb_frame (Some (L "a")) None 0 (Some []) 1 false 15 (Some (L "libfoo.so"))]) /\
  sr_gdb_thread_get_optimized (mk_gdb_thread 1 77 [fr "a" "" 15]) [mk_gdb_sharedlib 10 20 0 None] 1 = UB.
Proof. split; vm_compute; reflexivity. Qed.
Print Assumptions C23_selection.
Print Assumptions C23_no_recursion.
Print Assumptions C23_nothing_removable.
Print Assumptions C23_below_exit.
Print Assumptions C23_below_above.
Print Assumptions C23_removed_alone.
Print Assumptions C23_recursion_collapsed.
Print Assumptions C23_null_ends.
Print Assumptions C23_prefix_dropped.
Print Assumptions C23_variant_renamed.
Print Assumptions C23_keeps.
Print Assumptions C23_idempotent.
Print Assumptions C23_idempotent_refuted.
Print Assumptions C24_selection.
Print Assumptions C24_anonymous.
Print Assumptions C24_no_recursion.
Print Assumptions C24_nothing_removable.
Print Assumptions C24_below_exit.
Print Assumptions C24_below_above.
Print Assumptions C24_removed_alone.
Print Assumptions C24_recursion_collapsed.
Print Assumptions C24_null_ends.
Print Assumptions C24_prefix_dropped.
Print Assumptions C24_variant_renamed.
Print Assumptions C24_keeps.
Print Assumptions C24_idempotent.
Print Assumptions C24_idempotent_refuted.
Print Assumptions C25_exact.
Print Assumptions C25_idempotent.
Print Assumptions C25_search.
Print Assumptions C25_sorted.
Print Assumptions C26_pairs.
Print Assumptions C26_names.
Print Assumptions C26_fresh_refuted.
Print Assumptions C27_optimized.
