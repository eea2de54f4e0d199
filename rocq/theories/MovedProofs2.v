(** * Proofs: crash thread, short text, reason and quality do not depend on addresses. *)
From Coq Require Import QArith.
From Verif Require Import Base Types NormTables UtilsModel CmpModel NormModel NormSpec NormProofs CrashModel TextModel SystemModel ReportModel
  JsonKeepProofs JsonKeepProofs2 JsonKeepProofs3 MovedSpec MovedProofs.
Close Scope Q_scope.
Open Scope Z_scope.

(** ** Frames that are equal without addresses are moved *)
Lemma tell_back a b : tell_zero a = tell_zero b -> zero_alike a b.
Proof. unfold zero_alike, tell_zero. destruct (Z.eqb_spec a 0), (Z.eqb_spec b 0); intros E; try discriminate E; tauto. Qed.
Lemma core_strip_moved f g : core_strip f = core_strip g -> core_moved f g.
Proof.
  intros E. assert (P : forall A (p : core_frame -> A), p (core_strip f) = p (core_strip g)) by (intros; now rewrite E).
  pose proof (P _ cf_build_id) as E1. pose proof (P _ cf_build_id_offset) as E2. pose proof (P _ cf_function_name) as E3. pose proof (P _ cf_file_name) as E4.
  pose proof (P _ cf_fingerprint) as E5. pose proof (P _ cf_fingerprint_hashed) as E6. pose proof (P _ cf_address) as E7.
  cbn [core_strip core_place cf_address cf_build_id cf_build_id_offset cf_function_name cf_file_name cf_fingerprint cf_fingerprint_hashed] in *.
  unfold no_identity in E7. rewrite <- E1, <- E3, <- E5 in E7. unfold core_moved. split; [repeat split; congruence|].
  destruct (cf_build_id f); [split; [now apply tell_back|left; discriminate]|].
  destruct (cf_function_name f); [split; [now apply tell_back|right; left; discriminate]|].
  destruct (cf_fingerprint f); [split; [now apply tell_back|right; right; left; discriminate]|]. split; [unfold zero_alike; now rewrite E7|]. now right; right; right.
Qed.
Lemma gdb_strip_moved f g : gdb_strip f = gdb_strip g -> gdb_moved f g.
Proof.
  intros E. assert (P : forall A (p : gdb_frame -> A), p (gdb_strip f) = p (gdb_strip g)) by (intros; now rewrite E).
  pose proof (P _ gf_address) as E7. cbn [gdb_strip gdb_place gf_address] in E7. split; [|now apply tell_back].
  pose proof (P _ gf_function_name). pose proof (P _ gf_function_type). pose proof (P _ gf_number). pose proof (P _ gf_source_file). pose proof (P _ gf_source_line).
  pose proof (P _ gf_signal_handler_called). pose proof (P _ gf_library_name).
  cbn [gdb_strip gdb_place gf_function_name gf_function_type gf_number gf_source_file gf_source_line gf_signal_handler_called gf_library_name] in *.
  repeat split; congruence.
Qed.
Lemma koops_strip_moved f g : koops_strip f = koops_strip g -> koops_moved f g.
Proof.
  intros E. assert (P : forall A (p : koops_frame -> A), p (koops_strip f) = p (koops_strip g)) by (intros; now rewrite E).
  pose proof (P _ kf_address) as E7. pose proof (P _ kf_function_name) as E8.
  pose proof (P _ kf_reliable). pose proof (P _ kf_function_offset). pose proof (P _ kf_function_length). pose proof (P _ kf_module_name).
  pose proof (P _ kf_from_function_name). pose proof (P _ kf_from_function_offset). pose proof (P _ kf_from_function_length). pose proof (P _ kf_from_module_name). pose proof (P _ kf_special_stack).
  cbn [koops_strip koops_place kf_address kf_reliable kf_function_name kf_function_offset kf_function_length kf_module_name kf_from_function_name kf_from_function_offset kf_from_function_length kf_from_module_name kf_special_stack] in *.
  split; [repeat split; congruence|]. rewrite <- E8 in E7. destruct (kf_function_name f); [left; discriminate|]. now right.
Qed.
Lemma unstrip_list {F} (strip : F -> F) (R : F -> F -> Prop) : (forall f g, strip f = strip g -> R f g) -> forall l l', map strip l = map strip l' -> Forall2 R l l'.
Proof. intros H. induction l as [|f l IH]; intros [|g l'] E; try discriminate E; [constructor|]. injection E as E1 E2. constructor; auto. Qed.
Lemma thread_normalize_moved t u n : thread_moved t u -> sr_thread_normalize t = Ok n -> exists m, sr_thread_normalize u = Ok m /\ thread_moved n m.
Proof.
  intros H. destruct t, u; cbn [thread_moved] in H; try discriminate H; try (injection H as <-); cbn [sr_thread_normalize];
    try (intros E; injection E as <-; eexists; split; [reflexivity|]; reflexivity).
  - intros E; injection E as <-. eexists. split; [reflexivity|]. cbn [thread_moved sr_normalize_core_thread ct_frames].
    apply (unstrip_list core_strip core_moved core_strip_moved). now rewrite <- !core_normalize_strip, (strip_list core_strip core_moved _ _ core_moved_strip H).
  - destruct H as [H S']. pose proof (koops_normalize_strip (ks_frames t)) as E1. pose proof (koops_normalize_strip (ks_frames t0)) as E2.
    rewrite (strip_list koops_strip koops_moved _ _ koops_moved_strip H), E2 in E1.
    destruct (sr_normalize_koops_frames (ks_frames t)) as [a| |], (sr_normalize_koops_frames (ks_frames t0)) as [b| |]; cbn [bind]; try discriminate E1; intros E; try discriminate E.
    injection E as <-. eexists. split; [reflexivity|]. cbn [thread_moved ks_frames ks_reason]. split; [|exact S'].
    apply (unstrip_list koops_strip koops_moved koops_strip_moved). congruence.
  - destruct H as (H1 & H2 & H). intros E; injection E as <-. eexists. split; [reflexivity|]. cbn [thread_moved sr_normalize_gdb_thread gt_number gt_tid gt_frames].
    split; [exact H1|]. split; [exact H2|]. apply (unstrip_list gdb_strip gdb_moved gdb_strip_moved). now rewrite <- !gdb_normalize_strip, (strip_list gdb_strip gdb_moved _ _ gdb_moved_strip H).
Qed.

(** ** Crash thread *)
Lemma find_index_related {A B} (p : A -> bool) (q : B -> bool) l l' : Forall2 (fun x y => p x = q y) l l' -> forall i, find_index p i l = find_index q i l'.
Proof. induction 1 as [|x y l l' E H IH]; intros i; cbn [find_index]; [reflexivity|]. now rewrite E, IH. Qed.
Lemma core_abort_moved t u : Forall2 core_moved (ct_frames t) (ct_frames u) -> sr_core_thread_find_exit_frame t = sr_core_thread_find_exit_frame u.
Proof.
  intros H. unfold sr_core_thread_find_exit_frame. apply (strip_list core_strip core_moved _ _ core_moved_strip) in H.
  rewrite <- (find_exit_map core_strip sr_core_thread_is_exit_frame (fun _ => eq_refl) (ct_frames t)), H. now apply find_exit_map.
Qed.
Lemma Forall2_impl' {A B} (P Q : A -> B -> Prop) l l' : (forall x y, P x y -> Q x y) -> Forall2 P l l' -> Forall2 Q l l'.
Proof. intros H. induction 1; constructor; auto. Qed.
Lemma core_crash_moved s s' : stacktrace_moved (SCore s) (SCore s') -> sr_core_stacktrace_find_crash_thread s' = sr_core_stacktrace_find_crash_thread s.
Proof.
  intros (_ & _ & C & T). unfold sr_core_stacktrace_find_crash_thread. rewrite C. destruct (cs_crash_thread s); [reflexivity|].
  symmetry. pose proof T as T0. destruct T as [|t u l l' E T]; [reflexivity|]. destruct T as [|t2 u2 l l' E2 T]; [reflexivity|].
  apply find_index_related. eapply Forall2_impl'; [|exact T0]. intros x y H. now rewrite (core_abort_moved x y H).
Qed.
Definition gdb_tstrip (t : gdb_thread) : gdb_thread := mk_gdb_thread (gt_number t) (gt_tid t) (map gdb_strip (gt_frames t)).
Lemma frames_cmp_strip cmp l m : (forall f g, cmp (gdb_strip f) (gdb_strip g) = cmp f g) -> frames_cmp cmp (map gdb_strip l) (map gdb_strip m) = frames_cmp cmp l m.
Proof. intros H. revert m. induction l as [|f l IH]; intros [|g m]; cbn; try reflexivity. now rewrite H, IH. Qed.
Lemma same_name_strip n t : same_name n (gdb_tstrip t) = same_name n t.
Proof. unfold same_name. cbn [gdb_tstrip gt_frames]. now destruct (gt_frames t). Qed.
Lemma abort_strip r t : abort_requirement_satisfied r (gdb_tstrip t) = abort_requirement_satisfied r t.
Proof. destruct r; try reflexivity. cbn. unfold sr_glibc_thread_find_exit_frame. cbn [gdb_tstrip gt_frames]. now rewrite find_exit_map by reflexivity. Qed.
Lemma match_loop_strip req name : forall l i r, match_loop req name i (map gdb_tstrip l) (option_map (fun x => (fst x, gdb_tstrip (snd x))) r) = match_loop req name i l r.
Proof.
  induction l as [|t l IH]; intros i r; cbn [map match_loop].
  - destruct r; reflexivity.
  - rewrite same_name_strip, abort_strip. destruct (same_name name t && abort_requirement_satisfied req t).
    + destruct r as [[k b]|]; cbn [option_map fst snd].
      * destruct req; try reflexivity. unfold thread_cmp_dont_compare_number at 1. cbn [gdb_tstrip gt_frames].
        rewrite frames_cmp_strip by reflexivity. fold (thread_cmp_dont_compare_number t b).
        destruct (thread_cmp_dont_compare_number t b <? 0); [apply (IH (S i) (Some (i, t)))|apply (IH (S i) (Some (k, b)))].
      * apply (IH (S i) (Some (i, t))).
    + apply IH.
Qed.
Definition gs_strip (s : gdb_stacktrace) : gdb_stacktrace := mk_gdb_stacktrace (map gdb_tstrip (gs_threads s)) (option_map gdb_strip (gs_crash s)) [] (gs_crash_tid s).
Lemma from_crash_strip s r : find_crash_thread_from_crash_frame (gs_strip s) r = find_crash_thread_from_crash_frame s r.
Proof.
  unfold find_crash_thread_from_crash_frame. cbn [gs_strip gs_crash gs_threads]. destruct (gs_crash s) as [c|]; [|reflexivity]. cbn [option_map gdb_strip gdb_place gf_function_name].
  destruct (gf_function_name c) as [nm|]; [|reflexivity]. exact (match_loop_strip r nm (gs_threads s) 0%nat None).
Qed.
Lemma gdb_crash_strip s : sr_gdb_stacktrace_find_crash_thread (gs_strip s) = sr_gdb_stacktrace_find_crash_thread s.
Proof.
  unfold sr_gdb_stacktrace_find_crash_thread. rewrite !from_crash_strip. cbn [gs_strip gs_threads gs_crash_tid]. destruct (gs_threads s) as [|t [|u l]]; try reflexivity.
  cbn [map]. rewrite <- !(map_cons gdb_tstrip), find_index_map. reflexivity.
Qed.
Lemma gdb_strip_eq s s' : stacktrace_moved (SGdb s) (SGdb s') -> gs_strip s = gs_strip s'.
Proof.
  intros (T & C & F & _). unfold gs_strip. rewrite T. f_equal.
  - induction F as [|t u l l' (E1 & E2 & E3) F IH]; [reflexivity|]. cbn [map]. f_equal; [|exact IH]. unfold gdb_tstrip. rewrite E1, E2. f_equal.
    apply (strip_list gdb_strip gdb_moved _ _ gdb_moved_strip). eapply Forall2_impl'; [|exact E3]. intros x y [H _]. exact H.
  - destruct (gs_crash s), (gs_crash s'); try contradiction; try reflexivity. cbn. f_equal. now apply gdb_moved_strip.
Qed.
Lemma gdb_crash_moved s s' : stacktrace_moved (SGdb s) (SGdb s') -> sr_gdb_stacktrace_find_crash_thread s' = sr_gdb_stacktrace_find_crash_thread s.
Proof. intros H. rewrite <- gdb_crash_strip, <- (gdb_strip_eq s s' H). apply gdb_crash_strip. Qed.
Lemma Forall2_nth {A B} (P : A -> B -> Prop) l l' i : Forall2 P l l' ->
  match nth_error l i, nth_error l' i with Some x, Some y => P x y | None, None => True | _, _ => False end.
Proof. intros H. revert i. induction H; intros [|i]; cbn; auto. apply IHForall2. Qed.
Lemma gdb_thread_of s s' i t u : stacktrace_moved (SGdb s) (SGdb s') -> nth_error (gs_threads s) i = Some t -> nth_error (gs_threads s') i = Some u ->
  thread_moved (TGdb t) (TGdb u) /\ Forall2 (fun f g => gdb_moved f g /\ libs_moved (gs_libs s) (gs_libs s') f g) (gt_frames t) (gt_frames u).
Proof.
  intros (_ & _ & F & _) E1 E2. pose proof (Forall2_nth _ _ _ i F) as H. rewrite E1, E2 in H. destruct H as (H1 & H2 & H3). split; [|exact H3].
  cbn. split; [exact H1|]. split; [exact H2|]. eapply Forall2_impl'; [|exact H3]. intros x y [H _]. exact H.
Qed.
Lemma crash_thread_moved s s' : stacktrace_moved s s' ->
  match sr_stacktrace_find_crash_thread s, sr_stacktrace_find_crash_thread s' with
  | Some t, Some u => thread_moved t u
  | None, None => True
  | _, _ => False
  end.
Proof.
  assert (Rf : forall t : thread, (forall x, t <> TCore x) -> (forall x, t <> TGdb x) -> (forall x, t <> TKoops x) -> thread_moved t t).
  { intros [t|t|t|t|t|t|t] H1 H2 H3; cbn; try reflexivity; [destruct (H1 t eq_refl)|destruct (H3 t eq_refl)|destruct (H2 t eq_refl)]. }
  destruct s as [s|s|s|s|s|s|s], s' as [s'|s'|s'|s'|s'|s'|s']; intros H; try discriminate H; try (cbn in H; injection H as <-).
  - cbn [sr_stacktrace_find_crash_thread]. rewrite (core_crash_moved s s' H). destruct (sr_core_stacktrace_find_crash_thread s) as [i|]; [|exact Logic.I].
    destruct H as (_ & _ & _ & T). pose proof (Forall2_nth _ _ _ i T) as N. destruct (nth_error (cs_threads s) i), (nth_error (cs_threads s') i); exact N.
  - cbn. reflexivity.
  - cbn [sr_stacktrace_find_crash_thread]. exact H.
  - cbn [sr_stacktrace_find_crash_thread]. destruct (sr_java_find_crash_thread s) as [i|]; [|exact Logic.I]. destruct (nth_error (vs_threads s) i); cbn; [reflexivity|exact Logic.I].
  - cbn [sr_stacktrace_find_crash_thread]. rewrite (gdb_crash_moved s s' H). destruct (sr_gdb_stacktrace_find_crash_thread s) as [i|]; [|exact Logic.I].
    pose proof H as (_ & _ & F & _). pose proof (Forall2_nth _ _ _ i F) as N. destruct (nth_error (gs_threads s) i) eqn:E1, (nth_error (gs_threads s') i) eqn:E2; try exact N.
    apply (gdb_thread_of s s' i _ _ H E1 E2).
  - cbn. reflexivity.
  - cbn. reflexivity.
Qed.

(** ** Short text *)
Lemma short_frame_strip f : sr_frame_append_to_str (frame_strip f) = sr_frame_append_to_str f.
Proof. destruct f; reflexivity. Qed.
Lemma short_loop_strip m : forall l i, short_text_loop (map frame_strip l) i m = short_text_loop l i m.
Proof. induction l as [|f l IH]; intros i; cbn [map short_text_loop]; [reflexivity|]. rewrite short_frame_strip, IH. reflexivity. Qed.
Lemma lib_found libs libs' f g : libs_moved libs libs' f g ->
  match sr_gdb_sharedlib_find_address libs (gf_address f), sr_gdb_sharedlib_find_address libs' (gf_address g) with
  | Some l, Some l' => gl_soname l = gl_soname l' | None, None => True | _, _ => False end.
Proof.
  intros [U F]. unfold sr_gdb_sharedlib_find_address.
  assert (E : (gf_address f =? ulong_max) = (gf_address g =? ulong_max)) by (destruct (Z.eqb_spec (gf_address f) ulong_max), (Z.eqb_spec (gf_address g) ulong_max); tauto || reflexivity).
  rewrite E. destruct (gf_address g =? ulong_max); [exact Logic.I|]. clear U E.
  induction F as [|l l' r r' (N & C) F IH]; [exact Logic.I|]. cbn [find]. unfold covers in C.
  assert (E : ((gl_from l <=? gf_address f) && (gf_address f <=? gl_to l)) = ((gl_from l' <=? gf_address g) && (gf_address g <=? gl_to l'))).
  { apply eq_true_iff_eq. rewrite !andb_true_iff, !Z.leb_le. exact C. }
  rewrite E. destruct ((gl_from l' <=? gf_address g) && (gf_address g <=? gl_to l')); [exact N|exact IH].
Qed.
Lemma libnames_moved libs libs' : forall l l', Forall2 (fun f g => gdb_moved f g /\ libs_moved libs libs' f g) l l' ->
  (exists a b, sr_gdb_thread_set_libnames libs l = Ok a /\ sr_gdb_thread_set_libnames libs' l' = Ok b /\ map gdb_strip a = map gdb_strip b) \/
  (sr_gdb_thread_set_libnames libs l = UB /\ sr_gdb_thread_set_libnames libs' l' = UB).
Proof.
  induction 1 as [|f g l l' (M & B) H IH]; [left; exists [], []; repeat split; reflexivity|]. cbn [sr_gdb_thread_set_libnames].
  pose proof (lib_found libs libs' f g B) as L. destruct (sr_gdb_sharedlib_find_address libs (gf_address f)) as [x|], (sr_gdb_sharedlib_find_address libs' (gf_address g)) as [y|]; try contradiction.
  - rewrite <- L. destruct (gl_soname x) as [n|]; cbn [bind]; [|right; split; reflexivity].
    destruct IH as [(a & b & E1 & E2 & E) | [E1 E2]]; rewrite E1, E2; cbn [bind]; [|right; split; reflexivity]. left. do 2 eexists. split; [reflexivity|]. split; [reflexivity|].
    cbn [map]. f_equal; [|exact E]. destruct M as ((F1 & F2 & F3 & F4 & F5 & F6 & F7) & Z). unfold gdb_strip, gdb_place.
    cbn [gf_function_name gf_function_type gf_number gf_source_file gf_source_line gf_signal_handler_called gf_library_name gf_address]. now rewrite F1, F2, F3, F4, F5, F6, (tell_alike _ _ Z).
  - cbn [bind]. destruct IH as [(a & b & E1 & E2 & E) | [E1 E2]]; rewrite E1, E2; cbn [bind]; [|right; split; reflexivity]. left. do 2 eexists. split; [reflexivity|]. split; [reflexivity|].
    cbn [map]. f_equal; [|exact E]. now apply gdb_moved_strip.
Qed.
Lemma optimize_strip l : optimize_frames (map gdb_strip l) = map gdb_strip (optimize_frames l).
Proof.
  induction l as [|f l IH]; [reflexivity|]. cbn [map optimize_frames]. rewrite IH. cbn [gdb_strip gdb_place gf_function_name].
  destruct (gf_function_name f); [|reflexivity]. now destruct (str_eqb _ _).
Qed.
Lemma named_strip l : filter (fun f => match gf_function_name f with None => false | Some _ => true end) (map gdb_strip l) =
  map gdb_strip (filter (fun f => match gf_function_name f with None => false | Some _ => true end) l).
Proof. induction l as [|f l IH]; [reflexivity|]. cbn [map filter]. cbn [gdb_strip gdb_place gf_function_name]. destruct (gf_function_name f); cbn [map]; now rewrite IH. Qed.
Lemma optimized_moved libs libs' t u n : gt_number u = gt_number t -> gt_tid u = gt_tid t -> length libs = length libs' ->
  Forall2 (fun f g => gdb_moved f g /\ libs_moved libs libs' f g) (gt_frames t) (gt_frames u) ->
  (exists a b, sr_gdb_thread_get_optimized t libs n = Ok a /\ sr_gdb_thread_get_optimized u libs' n = Ok b /\ gdb_tstrip a = gdb_tstrip b) \/
  (sr_gdb_thread_get_optimized t libs n = UB /\ sr_gdb_thread_get_optimized u libs' n = UB).
Proof.
  intros E1 E2 EL H. unfold sr_gdb_thread_get_optimized.
  assert (K : (exists a b, match libs with [] => Ok (gt_frames t) | _ => sr_gdb_thread_set_libnames libs (gt_frames t) end = Ok a /\
      match libs' with [] => Ok (gt_frames u) | _ => sr_gdb_thread_set_libnames libs' (gt_frames u) end = Ok b /\ map gdb_strip a = map gdb_strip b) \/
    (match libs with [] => Ok (gt_frames t) | _ => sr_gdb_thread_set_libnames libs (gt_frames t) end = UB /\
      match libs' with [] => Ok (gt_frames u) | _ => sr_gdb_thread_set_libnames libs' (gt_frames u) end = UB)).
  { pose proof (libnames_moved libs libs' _ _ H) as N. destruct libs as [|x libs], libs' as [|y libs']; try discriminate EL; [|exact N].
    left. do 2 eexists. split; [reflexivity|]. split; [reflexivity|]. apply (strip_list gdb_strip gdb_moved _ _ gdb_moved_strip). eapply Forall2_impl'; [|exact H]. intros f g [M _]. exact M. }
  destruct K as [(a & b & -> & -> & E) | [-> ->]]; cbn [bind]; [|right; split; reflexivity]. left. do 2 eexists. split; [reflexivity|]. split; [reflexivity|].
  unfold gdb_tstrip. cbn [gt_number gt_tid gt_frames]. rewrite E1, E2. f_equal.
  destruct (0 <? n); rewrite ?firstn_map, <- ?firstn_map, <- !named_strip, <- !optimize_strip, <- !gdb_normalize_strip, E; reflexivity.
Qed.
Lemma gdb_text_strip v t : sr_gdb_thread_append_to_str v (gdb_tstrip t) = sr_gdb_thread_append_to_str v t.
Proof. unfold sr_gdb_thread_append_to_str. cbn [gdb_tstrip gt_number gt_frames]. rewrite map_length, map_map. reflexivity. Qed.
Lemma short_text_moved s s' n : stacktrace_moved s s' -> sr_stacktrace_to_short_text s' n = sr_stacktrace_to_short_text s n.
Proof.
  intros H. assert (E : stacktrace_to_short_text s' n = stacktrace_to_short_text s n).
  { unfold stacktrace_to_short_text. pose proof (crash_thread_moved s s' H) as C. destruct (sr_stacktrace_find_crash_thread s), (sr_stacktrace_find_crash_thread s'); try contradiction; try reflexivity.
    apply thread_moved_alike in C. now rewrite <- (short_loop_strip n (sr_thread_frames t0)), <- C, short_loop_strip. }
  destruct s as [s|s|s|s|s|s|s], s' as [s'|s'|s'|s'|s'|s'|s']; try exact E; try discriminate H. clear E. cbn [sr_stacktrace_to_short_text]. unfold sr_gdb_stacktrace_to_short_text.
  rewrite (gdb_crash_moved s s' H). destruct (sr_gdb_stacktrace_find_crash_thread s) as [i|]; [|reflexivity].
  pose proof H as (_ & _ & F & EL). pose proof (Forall2_nth _ _ _ i F) as N. destruct (nth_error (gs_threads s) i) as [t|], (nth_error (gs_threads s') i) as [u|]; try destruct N; [|reflexivity].
  destruct (optimized_moved (gs_libs s) (gs_libs s') t u n H0 (proj1 H1) EL (proj2 H1)) as [(a & b & -> & -> & E) | [-> ->]]; [|reflexivity]. cbn [bind].
  now rewrite <- (gdb_text_strip true b), <- E, gdb_text_strip.
Qed.

(** ** Reason *)
Lemma contains_strstr h n : NormModel.strstr h n = true <-> MovedSpec.contains h n.
Proof. exact (strstr_iff h n). Qed.
Lemma reason_moved s s' : stacktrace_moved s s' -> sr_stacktrace_get_reason s' = sr_stacktrace_get_reason s.
Proof.
  destruct s as [s|s|s|s|s|s|s], s' as [s'|s'|s'|s'|s'|s'|s']; intros H; try discriminate H; try (cbn in H; injection H as <-; reflexivity).
  - destruct H as (E1 & E2 & _). cbn [sr_stacktrace_get_reason]. unfold core_reason. now rewrite E1, E2.
  - destruct H as [H S']. cbn [sr_stacktrace_get_reason]. unfold koops_reason. pose proof (koops_normalize_strip (ks_frames s)) as E1. pose proof (koops_normalize_strip (ks_frames s')) as E2.
    rewrite (strip_list koops_strip koops_moved _ _ koops_moved_strip H), E2 in E1.
    destruct (sr_normalize_koops_frames (ks_frames s)) as [a| |], (sr_normalize_koops_frames (ks_frames s')) as [b| |]; try discriminate E1; try reflexivity. cbn [bind].
    assert (Q : map koops_strip a = map koops_strip b) by congruence. clear E1 E2.
    assert (F : match a with [] => None | f :: _ => Some (kf_function_name f, kf_module_name f) end = match b with [] => None | f :: _ => Some (kf_function_name f, kf_module_name f) end).
    { destruct a as [|f a], b as [|g b]; try discriminate Q; [reflexivity|]. injection Q as Q1 Q2. f_equal.
      congruence. }
    clear Q H. f_equal. f_equal.
    assert (FN : (match match b with [] => None | f :: _ => Some f end with Some f => match kf_function_name f with Some n => n | None => L "<unknown>" end | None => L "<unknown>" end) =
                 (match match a with [] => None | f :: _ => Some f end with Some f => match kf_function_name f with Some n => n | None => L "<unknown>" end | None => L "<unknown>" end)).
    { destruct a, b; try discriminate F; [reflexivity|]. assert (X : kf_function_name k = kf_function_name k0) by congruence. now rewrite X. }
    assert (MN : (match match b with [] => None | f :: _ => Some f end with Some f => match kf_module_name f with Some m => L " [" ++ m ++ L "]" | None => [] end | None => [] end) =
                 (match match a with [] => None | f :: _ => Some f end with Some f => match kf_module_name f with Some m => L " [" ++ m ++ L "]" | None => [] end | None => [] end)).
    { destruct a, b; try discriminate F; [reflexivity|]. assert (X : kf_module_name k = kf_module_name k0) by congruence. now rewrite X. }
    rewrite FN, MN. destruct S' as [-> | (x & y & -> & -> & D)]; [reflexivity|]. do 2 f_equal.
    destruct D as [[D1 D2] | (D1 & D2 & D3 & D4)].
    + apply contains_strstr in D1, D2. now rewrite D1, D2.
    + apply contains_strstr in D1, D2. rewrite D1, D2. rewrite <- contains_strstr in D3, D4. apply not_true_is_false in D3, D4. now rewrite D3, D4.
  - reflexivity.
Qed.

(** ** Quality *)
Lemma counts_strip l : forall c, quality_counts gdb_frame_ok (map gdb_strip l) c = quality_counts gdb_frame_ok l c.
Proof. induction l as [|f l IH]; intros c; cbn [map quality_counts]; [reflexivity|]. rewrite IH. reflexivity. Qed.
Lemma simple_strip s : sr_gdb_stacktrace_quality_simple (gs_strip s) = sr_gdb_stacktrace_quality_simple s.
Proof.
  unfold sr_gdb_stacktrace_quality_simple. cbn [gs_strip gs_threads].
  assert (E : forall l c, fold_left (fun c t => sr_gdb_thread_quality_counts t c) (map gdb_tstrip l) c = fold_left (fun c t => sr_gdb_thread_quality_counts t c) l c).
  { induction l as [|t l IH]; intros c; cbn [map fold_left]; [reflexivity|]. rewrite IH. f_equal. unfold sr_gdb_thread_quality_counts. cbn [gdb_tstrip gt_frames]. apply counts_strip. }
  now rewrite E.
Qed.
Lemma quality_strip t : sr_gdb_thread_quality (gdb_tstrip t) = sr_gdb_thread_quality t.
Proof. unfold sr_gdb_thread_quality, sr_gdb_thread_quality_counts. cbn [gdb_tstrip gt_frames]. now rewrite counts_strip. Qed.
Lemma gdb_strip_twice f : gdb_strip (gdb_strip f) = gdb_strip f.
Proof. unfold gdb_strip, gdb_place. cbn [gf_function_name gf_function_type gf_number gf_source_file gf_source_line gf_signal_handler_called gf_address gf_library_name]. unfold tell_zero. destruct (gf_address f =? 0); reflexivity. Qed.
Lemma normalize_gs_strip s : gs_strip (sr_normalize_gdb_stacktrace (gs_strip s)) = gs_strip (sr_normalize_gdb_stacktrace s).
Proof.
  unfold sr_normalize_gdb_stacktrace. rewrite gdb_crash_strip. unfold gs_strip. cbn [gs_threads gs_crash gs_libs gs_crash_tid]. f_equal.
  - rewrite !map_map. apply map_ext. intros t. unfold gdb_tstrip, sr_normalize_gdb_thread. cbn [gt_number gt_tid gt_frames]. f_equal.
    rewrite gdb_normalize_strip, map_map. apply map_ext. exact gdb_strip_twice.
  - destruct (gs_crash s) as [c|]; [|reflexivity]. cbn [option_map]. f_equal. rewrite gdb_frame_strip. apply gdb_strip_twice.
  - destruct (gs_crash_tid s =? uint32_max); [|reflexivity]. destruct (sr_gdb_stacktrace_find_crash_thread s) as [i|]; [|reflexivity]. rewrite nth_error_map. destruct (nth_error (gs_threads s) i); reflexivity.
Qed.
Lemma complex_strip s : sr_gdb_stacktrace_quality_complex (gs_strip s) = sr_gdb_stacktrace_quality_complex s.
Proof.
  unfold sr_gdb_stacktrace_quality_complex. rewrite gdb_crash_strip.
  assert (E1 : sr_gdb_stacktrace_quality_simple (sr_normalize_gdb_stacktrace (gs_strip s)) = sr_gdb_stacktrace_quality_simple (sr_normalize_gdb_stacktrace s))
    by (rewrite <- simple_strip, normalize_gs_strip, simple_strip; reflexivity).
  rewrite E1. destruct (sr_gdb_stacktrace_find_crash_thread s) as [i|]; [|reflexivity].
  pose proof (f_equal (fun x => nth_error (gs_threads x) i) (normalize_gs_strip s)) as N. cbv beta in N.
  set (a := sr_normalize_gdb_stacktrace (gs_strip s)) in *. set (b := sr_normalize_gdb_stacktrace s) in *. cbn [gs_strip gs_threads] in N. rewrite !nth_error_map in N.
  destruct (nth_error (gs_threads a) i) as [t|], (nth_error (gs_threads b) i) as [u|]; try discriminate N; [|reflexivity]. cbn [option_map] in N.
  assert (T : gdb_tstrip t = gdb_tstrip u) by congruence.
  assert (Q2 : sr_gdb_thread_quality t = sr_gdb_thread_quality u) by (rewrite <- (quality_strip t), T; apply quality_strip).
  assert (Q3 : sr_gdb_thread_quality (remove_frames_below_n t 5) = sr_gdb_thread_quality (remove_frames_below_n u 5)).
  { rewrite <- (quality_strip (remove_frames_below_n t 5)), <- (quality_strip (remove_frames_below_n u 5)). f_equal.
    pose proof (f_equal gt_number T) as X. pose proof (f_equal gt_tid T) as Y. pose proof (f_equal gt_frames T) as V. unfold gdb_tstrip in X, Y, V |- *. cbn [gt_number gt_tid gt_frames remove_frames_below_n] in *.
    now rewrite X, Y, <- !firstn_map, V. }
  now rewrite Q2, Q3.
Qed.
Lemma quality_moved s s' : stacktrace_moved (SGdb s) (SGdb s') ->
  sr_gdb_stacktrace_quality_simple s' = sr_gdb_stacktrace_quality_simple s /\ sr_gdb_stacktrace_quality_complex s' = sr_gdb_stacktrace_quality_complex s.
Proof.
  intros H. apply gdb_strip_eq in H. split.
  - rewrite <- simple_strip, <- H. apply simple_strip.
  - rewrite <- complex_strip, <- H. apply complex_strip.
Qed.
