(** * Proofs: what a crash is known by does not depend on addresses. *)
From Coq Require Import QArith.
From Verif Require Import Base Types NormTables UtilsModel CmpModel DistMatrixModel DistModel DistSpec DistProofs4 NormModel NormSpec NormProofs CrashModel TextModel SystemModel ReportModel
  JsonKeepProofs JsonKeepProofs2 JsonKeepProofs3 MovedSpec.
Open Scope Z_scope.

(** ** Forgetting addresses *)
Definition tell_zero (a : Z) : Z := if a =? 0 then 0 else 1.
Lemma tell_alike a b : zero_alike a b -> tell_zero a = tell_zero b.
Proof. unfold zero_alike, tell_zero. intros H. destruct (Z.eqb_spec a 0), (Z.eqb_spec b 0); tauto || reflexivity. Qed.
Lemma tell_eqb a : (tell_zero a =? 0) = (a =? 0).
Proof. unfold tell_zero. destruct (Z.eqb_spec a 0) as [-> |]; reflexivity. Qed.
Definition no_identity (f : core_frame) : bool :=
  match cf_build_id f, cf_function_name f, cf_fingerprint f with None, None, None => true | _, _, _ => false end.
Definition core_place (f : core_frame) (a : Z) : core_frame :=
  mk_core_frame a (cf_build_id f) (cf_build_id_offset f) (cf_function_name f) (cf_file_name f) (cf_fingerprint f) (cf_fingerprint_hashed f).
Definition core_strip (f : core_frame) : core_frame := core_place f (if no_identity f then cf_address f else tell_zero (cf_address f)).
Definition gdb_place (f : gdb_frame) (a : Z) : gdb_frame :=
  mk_gdb_frame (gf_function_name f) (gf_function_type f) (gf_number f) (gf_source_file f) (gf_source_line f) (gf_signal_handler_called f) a (gf_library_name f).
Definition gdb_strip (f : gdb_frame) : gdb_frame := gdb_place f (tell_zero (gf_address f)).
Definition koops_place (f : koops_frame) (a b : Z) : koops_frame :=
  mk_koops_frame a (kf_reliable f) (kf_function_name f) (kf_function_offset f) (kf_function_length f) (kf_module_name f) b
    (kf_from_function_name f) (kf_from_function_offset f) (kf_from_function_length f) (kf_from_module_name f) (kf_special_stack f).
Definition koops_strip (f : koops_frame) : koops_frame :=
  koops_place f (match kf_function_name f with None => kf_address f | Some _ => 0 end) 0.
Lemma core_moved_strip f g : core_moved f g -> core_strip f = core_strip g.
Proof.
  destruct f as [a b o n i p h], g as [a' b' o' n' i' p' h']. unfold core_moved, core_strip, core_place, no_identity.
  cbn [cf_address cf_build_id cf_build_id_offset cf_function_name cf_file_name cf_fingerprint cf_fingerprint_hashed].
  intros ((-> & -> & -> & -> & -> & ->) & Z & H). rewrite (tell_alike _ _ Z).
  destruct b; [reflexivity|]. destruct n; [reflexivity|]. destruct p; [reflexivity|]. destruct H as [H | [H | [H | H]]]; congruence.
Qed.
Lemma gdb_moved_strip f g : gdb_moved f g -> gdb_strip f = gdb_strip g.
Proof.
  unfold gdb_moved, gdb_strip, gdb_place. intros ((E1 & E2 & E3 & E4 & E5 & E6 & E7) & Z).
  now rewrite E1, E2, E3, E4, E5, E6, E7, (tell_alike _ _ Z).
Qed.
Lemma koops_moved_strip f g : koops_moved f g -> koops_strip f = koops_strip g.
Proof.
  unfold koops_moved, koops_strip, koops_place. intros ((E1 & E2 & E3 & E4 & E5 & E6 & E7 & E8 & E9 & E10) & H).
  rewrite E1, E2, E3, E4, E5, E6, E7, E8, E9, E10. destruct (kf_function_name f); [reflexivity|]. destruct H as [H | H]; [congruence|now rewrite H].
Qed.
Lemma strip_list {F} (strip : F -> F) (R : F -> F -> Prop) l l' : (forall f g, R f g -> strip f = strip g) -> Forall2 R l l' -> map strip l = map strip l'.
Proof. intros H. induction 1; cbn; [reflexivity|]. f_equal; auto. Qed.

(** ** Normalization *)
Lemma core_with_strip f n i : (n = None <-> cf_function_name f = None) -> core_with (core_strip f) n i = core_strip (core_with f n i).
Proof.
  intros H. destruct f as [a b o m j p h]. unfold core_with, core_strip, core_place, no_identity in *.
  cbn [cf_address cf_build_id cf_build_id_offset cf_function_name cf_file_name cf_fingerprint cf_fingerprint_hashed] in *.
  destruct b; [reflexivity|]. destruct m, n; try reflexivity; destruct H as [H1 H2]; [discriminate (H1 eq_refl)|discriminate (H2 eq_refl)].
Qed.
Lemma core_normalize_strip l : sr_normalize_core_frames (map core_strip l) = map core_strip (sr_normalize_core_frames l).
Proof.
  unfold sr_normalize_core_frames.
  rewrite cut_exit_map by reflexivity.
  rewrite (map_map core_strip core_prefix).
  rewrite (map_ext (fun x => core_prefix (core_strip x)) (fun x => core_strip (core_prefix x))).
  2: { intros f. unfold core_prefix. cbn [core_strip core_place cf_function_name cf_file_name]. apply core_with_strip. apply remove_prefixes_none. }
  rewrite <- (map_map core_prefix core_strip).
  rewrite (map_map core_strip core_rename).
  rewrite (map_ext (fun x => core_rename (core_strip x)) (fun x => core_strip (core_rename x))).
  2: { intros f. unfold core_rename. cbn [core_strip core_place cf_function_name cf_file_name].
       destruct (find_new_function_name_glibc (cf_function_name f) (cf_file_name f)) as [n|] eqn:E; [|reflexivity].
       apply core_with_strip. split; [discriminate|]. intros N. rewrite (rename_none _ (cf_file_name f) N) in E. discriminate E. }
  rewrite <- (map_map core_rename core_strip).
  match goal with |- context [sweep ?p ?a [] (map ?g ?l)] => change (sweep p a [] (map g l)) with (sweep p a (map g []) (map g l)) end.
  rewrite sweep_map by reflexivity.
  rewrite (map_map core_strip core_anonymize).
  rewrite (map_ext (fun x => core_anonymize (core_strip x)) (fun x => core_strip (core_anonymize x))).
  2: { intros f. unfold core_anonymize. cbn [core_strip core_place cf_function_name cf_file_name]. apply core_with_strip. tauto. }
  rewrite <- (map_map core_anonymize core_strip).
  assert (N : forall x, core_null_frame (core_strip x) = core_null_frame x).
  { intros x. unfold core_null_frame. cbn [core_strip core_place cf_address cf_function_name]. destruct (no_identity x); [reflexivity|]. now rewrite tell_eqb. }
  rewrite (drop_first_map core_strip core_null_frame _ N).
  rewrite (drop_last_map core_strip core_null_frame _ N).
  now rewrite merge_map by reflexivity.
Qed.
Lemma gdb_frame_strip f : sr_normalize_gdb_frame (gdb_strip f) = gdb_strip (sr_normalize_gdb_frame f).
Proof. unfold sr_normalize_gdb_frame. cbn [gdb_strip gdb_place gf_source_file]. now destruct (gf_source_file f). Qed.
Lemma gdb_normalize_strip l : sr_normalize_gdb_frames (map gdb_strip l) = map gdb_strip (sr_normalize_gdb_frames l).
Proof.
  unfold sr_normalize_gdb_frames.
  rewrite cut_exit_map by reflexivity.
  rewrite (map_map gdb_strip sr_normalize_gdb_frame), (map_ext _ _ gdb_frame_strip), <- (map_map sr_normalize_gdb_frame gdb_strip).
  rewrite (map_map gdb_strip gdb_rename).
  rewrite (map_ext (fun x => gdb_rename (gdb_strip x)) (fun x => gdb_strip (gdb_rename x))).
  2: { intros f. unfold gdb_rename. cbn [gdb_strip gdb_place gf_function_name gf_source_file]. now destruct (find_new_function_name_glibc _ _). }
  rewrite <- (map_map gdb_rename gdb_strip).
  match goal with |- context [sweep ?p ?a [] (map ?g ?l)] => change (sweep p a [] (map g l)) with (sweep p a (map g []) (map g l)) end.
  rewrite sweep_map by reflexivity.
  assert (N : forall x, gdb_null_frame (gdb_strip x) = gdb_null_frame x).
  { intros x. unfold gdb_null_frame. cbn [gdb_strip gdb_place gf_address gf_function_name]. now rewrite tell_eqb. }
  rewrite (drop_first_map gdb_strip gdb_null_frame _ N).
  rewrite (drop_last_map gdb_strip gdb_null_frame _ N).
  now rewrite merge_map by reflexivity.
Qed.
Lemma koops_cut_strip f : koops_cut_suffix (koops_strip f) = koops_strip (koops_cut_suffix f).
Proof.
  unfold koops_cut_suffix, koops_strip, koops_place. cbn [kf_function_name]. destruct (kf_function_name f) as [n|] eqn:E; [|cbn; now rewrite E].
  destruct (strchrnul n ".") as [b [|c r]]; cbn; rewrite ?E; reflexivity.
Qed.
Lemma koops_remove_strip l : koops_remove (map koops_strip l) =
  match koops_remove l with Ok r => Ok (map koops_strip r) | Fail => Fail | UB => UB end.
Proof.
  induction l as [|f l IH]; [reflexivity|]. cbn [map koops_remove]. rewrite IH. cbn [koops_strip koops_place kf_function_name kf_module_name].
  destruct (bsearch (kf_function_name f) _) as [b| |]; cbn [bind]; try reflexivity.
  destruct (koops_remove l) as [r| |]; cbn [bind]; try reflexivity. destruct (kf_module_name f); [reflexivity|]. now destruct b.
Qed.
Lemma koops_normalize_strip l : sr_normalize_koops_frames (map koops_strip l) =
  match sr_normalize_koops_frames l with Ok r => Ok (map koops_strip r) | Fail => Fail | UB => UB end.
Proof.
  unfold sr_normalize_koops_frames. rewrite map_map, (map_ext _ _ koops_cut_strip), <- (map_map koops_cut_suffix koops_strip).
  apply koops_remove_strip.
Qed.

(** ** Hash of duplicates *)
Definition frame_strip (f : frame) : frame :=
  match f with FCore f => FCore (core_strip f) | FGdb f => FGdb (gdb_strip f) | FKoops f => FKoops (koops_strip f) | f => f end.
Lemma frame_moved_strip f g : frame_moved f g -> frame_strip f = frame_strip g.
Proof.
  destruct f, g; cbn [frame_moved frame_strip]; intros H; try discriminate H; try congruence;
    [now rewrite (core_moved_strip _ _ H)|now rewrite (koops_moved_strip _ _ H)|now rewrite (gdb_moved_strip _ _ H)].
Qed.
Lemma dup_text_strip flags f : frame_duphash_text flags (frame_strip f) = frame_duphash_text flags f.
Proof.
  destruct f as [f|f|f|f|f|f|f]; try reflexivity; cbn [frame_strip frame_duphash_text].
  - unfold core_duphash_text, core_strip, core_place, no_identity. cbn [cf_build_id cf_build_id_offset cf_function_name cf_fingerprint cf_address].
    destruct (cf_build_id f); [reflexivity|]. destruct (cf_function_name f); [reflexivity|]. destruct (cf_fingerprint f); reflexivity.
  - unfold koops_duphash_text, koops_strip, koops_place. cbn [kf_reliable kf_function_name kf_address]. destruct (kf_function_name f); reflexivity.
Qed.
Lemma dup_loop_strip flags : forall l n buf, duphash_loop flags (map frame_strip l) n buf = duphash_loop flags l n buf.
Proof. induction l as [|f l IH]; intros n buf; cbn [map duphash_loop]; [reflexivity|]. rewrite dup_text_strip, IH. reflexivity. Qed.
Lemma dup_loop_moved flags l l' n buf : map frame_strip l = map frame_strip l' -> duphash_loop flags l n buf = duphash_loop flags l' n buf.
Proof. intros H. now rewrite <- (dup_loop_strip flags l), H, dup_loop_strip. Qed.
(** threads without addresses *)
Definition thread_alike (t u : thread) : Prop := map frame_strip (sr_thread_frames t) = map frame_strip (sr_thread_frames u).
Lemma map_core l : map frame_strip (map FCore l) = map FCore (map core_strip l). Proof. now rewrite !map_map. Qed.
Lemma map_gdb l : map frame_strip (map FGdb l) = map FGdb (map gdb_strip l). Proof. now rewrite !map_map. Qed.
Lemma map_koops l : map frame_strip (map FKoops l) = map FKoops (map koops_strip l). Proof. now rewrite !map_map. Qed.
Lemma thread_moved_alike t u : thread_moved t u -> thread_alike t u.
Proof.
  unfold thread_alike. destruct t, u; cbn [thread_moved sr_thread_frames]; intros H; try discriminate H; try congruence.
  - now rewrite !map_core, (strip_list core_strip core_moved _ _ core_moved_strip H).
  - destruct H as [H _]. now rewrite !map_koops, (strip_list koops_strip koops_moved _ _ koops_moved_strip H).
  - destruct H as (_ & _ & H). now rewrite !map_gdb, (strip_list gdb_strip gdb_moved _ _ gdb_moved_strip H).
Qed.
Lemma normalize_moved t u : thread_moved t u ->
  (exists n m, sr_thread_normalize t = Ok n /\ sr_thread_normalize u = Ok m /\ thread_alike n m) \/
  (sr_thread_normalize t = Fail /\ sr_thread_normalize u = Fail) \/ (sr_thread_normalize t = UB /\ sr_thread_normalize u = UB).
Proof.
  intros H. unfold thread_alike. destruct t, u; cbn [thread_moved] in H; try discriminate H; try (injection H as <-); cbn [sr_thread_normalize]; try (left; eexists; eexists; split; [reflexivity|]; split; reflexivity).
  - left. do 2 eexists. split; [reflexivity|]. split; [reflexivity|]. cbn [sr_thread_frames sr_normalize_core_thread ct_frames].
    now rewrite !map_core, <- !core_normalize_strip, (strip_list core_strip core_moved _ _ core_moved_strip H).
  - destruct H as [H _]. pose proof (koops_normalize_strip (ks_frames t)) as E1. pose proof (koops_normalize_strip (ks_frames t0)) as E2.
    rewrite (strip_list koops_strip koops_moved _ _ koops_moved_strip H), E2 in E1.
    destruct (sr_normalize_koops_frames (ks_frames t)) as [a| |], (sr_normalize_koops_frames (ks_frames t0)) as [b| |]; cbn [bind]; try discriminate E1; auto.
    left. do 2 eexists. split; [reflexivity|]. split; [reflexivity|]. cbn [sr_thread_frames ks_frames]. rewrite !map_koops.
    assert (Q : map koops_strip b = map koops_strip a) by congruence. now rewrite Q.
  - destruct H as (_ & _ & H). left. do 2 eexists. split; [reflexivity|]. split; [reflexivity|]. cbn [sr_thread_frames sr_normalize_gdb_thread gt_frames].
    now rewrite !map_gdb, <- !gdb_normalize_strip, (strip_list gdb_strip gdb_moved _ _ gdb_moved_strip H).
Qed.
Lemma duphash_moved t u : thread_moved t u -> forall sha1 n prefix flags, sr_thread_get_duphash sha1 u n prefix flags = sr_thread_get_duphash sha1 t n prefix flags.
Proof.
  intros H sha1 n prefix flags. unfold sr_thread_get_duphash.
  assert (K : forall a b, thread_alike a b -> forall k buf, duphash_loop flags (sr_thread_frames b) k buf = duphash_loop flags (sr_thread_frames a) k buf).
  { intros a b E k buf. symmetry. now apply dup_loop_moved. }
  destruct (flag_nonormalize flags).
  - cbn [bind]. now rewrite (K t u) by now apply thread_moved_alike.
  - destruct (normalize_moved t u H) as [(a & b & E1 & E2 & E) | [[E1 E2] | [E1 E2]]]; rewrite E1, E2; cbn [bind]; try reflexivity. now rewrite (K a b E).
Qed.

(** ** Distances *)
Lemma same_strip f g : frame_same (frame_strip f) (frame_strip g) = frame_same f g.
Proof. destruct f, g; reflexivity. Qed.
Lemma alike_related l l' : map frame_strip l = map frame_strip l' -> Forall2 (fun f g => frame_strip f = frame_strip g) l l'.
Proof. revert l'. induction l as [|f l IH]; intros [|g l'] H; try discriminate H; [constructor|]. injection H as E H. constructor; auto. Qed.
Lemma distance_alike dt ty ty' t t' w w' : thread_alike t t' -> thread_alike w w' ->
  sr_distance frame_same dt (ty, sr_thread_frames t') (ty', sr_thread_frames w') = sr_distance frame_same dt (ty, sr_thread_frames t) (ty', sr_thread_frames w).
Proof.
  intros H M. symmetry. apply (distance_related frame_same frame_same (fun f g => frame_strip f = frame_strip g)).
  - intros x y x' y' X Y. now rewrite <- same_strip, X, Y, same_strip.
  - now apply alike_related.
  - now apply alike_related.
Qed.
Lemma distance_self tr ty t u : thread_alike t u -> fits (sr_thread_frames t) (sr_thread_frames u) -> Forall (fun f => frame_same f f = true) (sr_thread_frames t) ->
  exists d, sr_distance frame_same (edit_type tr) (ty, sr_thread_frames t) (ty, sr_thread_frames u) = Ok d /\ (d == 0)%Q.
Proof.
  intros H Ft Sf. apply alike_related in H.
  assert (F2 : Forall2 (fun f g => frame_same f g = true) (sr_thread_frames t) (sr_thread_frames u)).
  { revert Sf. induction H as [|f g l l' E H IH]; intros Sf; constructor; inversion Sf; subst.
    - now rewrite <- same_strip, <- E, same_strip.
    - apply IH; [|assumption]. unfold fits in *. cbn [length] in Ft. lia. }
  destruct (edit_le frame_same ty _ _ Ft) as (d & d' & E1 & E2 & L).
  assert (Z' : (d' == 0)%Q) by (apply (edit_zero frame_same false ty _ _ d' Ft ltac:(discriminate) E2); exact F2).
  destruct tr; cbn [edit_type].
  - exists d. split; [exact E1|]. destruct (edit_range frame_same true ty _ _ Ft) as (d2 & E3 & R). cbn [edit_type] in E3. rewrite E1 in E3. injection E3 as <-.
    apply Qle_antisym; [rewrite <- Z'; exact L|apply R].
  - exists d'. split; [exact E2|exact Z'].
Qed.
