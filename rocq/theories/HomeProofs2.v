(** * Proofs: stack traces and texts of another user. *)
From Verif Require Import Base Types NormTables UtilsModel UtilsSpec UtilsProofs CmpModel NormModel NormSpec NormProofs CrashModel ParseSpec TextModel SystemModel ReportModel
  MovedProofs2 HomeSpec HomeProofs.
Open Scope nat_scope.

(** ** core stack traces *)
Lemma span_stop (p : ascii -> bool) c b b' : p c = false -> forall a, fst (span p (a ++ c :: b)) = fst (span p (a ++ c :: b')).
Proof. intros H. induction a as [|x a IH]; cbn [app span]; [now rewrite H|]. destruct (p x); [|reflexivity]. destruct (span p (a ++ c :: b)), (span p (a ++ c :: b')). cbn in *. now rewrite IH. Qed.
Lemma last_slash_home u v rest : after_last_slash (home u rest) = after_last_slash (home v rest).
Proof. unfold after_last_slash. rewrite !home_split, !rev_app_distr. cbn [rev]. rewrite <- !app_assoc. cbn [app]. f_equal. now apply span_stop. Qed.
Lemma core_text_alike f g : core_alike f g -> sr_core_frame_append_to_str f = sr_core_frame_append_to_str g.
Proof.
  intros (E1 & E2 & E3 & E4 & E5 & E6 & P). unfold sr_core_frame_append_to_str. rewrite E2, E3, E4. destruct P as [-> | (u & v & rest & _ & _ & -> & ->)]; [reflexivity|].
  now rewrite (last_slash_home u v rest).
Qed.
Lemma core_dup_alike f g : core_alike f g -> core_duphash_text f = core_duphash_text g.
Proof. intros (E1 & E2 & E3 & E4 & E5 & E6 & _). unfold core_duphash_text. now rewrite E1, E2, E3, E4, E5. Qed.
Lemma dup_loop_rel (R : frame -> frame -> Prop) flags : (forall f g, R f g -> frame_duphash_text flags f = frame_duphash_text flags g) ->
  forall l l', Forall2 R l l' -> forall n buf, duphash_loop flags l n buf = duphash_loop flags l' n buf.
Proof. intros H l l' F. induction F as [|f g l l' X F IH]; intros n buf; cbn [duphash_loop]; [reflexivity|]. now rewrite (H f g X), IH. Qed.
Lemma core_duphash_alike t u : Forall2 core_alike (ct_frames t) (ct_frames u) ->
  forall sha1 n prefix flags, sr_thread_get_duphash sha1 (TCore u) n prefix flags = sr_thread_get_duphash sha1 (TCore t) n prefix flags.
Proof.
  intros H sha1 n prefix flags. unfold sr_thread_get_duphash. destruct (flag_nonormalize flags); cbn [bind sr_thread_normalize sr_thread_frames].
  - erewrite (dup_loop_rel (fun f g => exists a b, f = FCore a /\ g = FCore b /\ core_alike b a) flags); [reflexivity| |].
    + intros f g (a & b & -> & -> & A). cbn. symmetry. now apply core_dup_alike.
    + induction H as [|x y l l' X H IH]; cbn; constructor; [|exact IH]. do 2 eexists. split; [reflexivity|]. split; [reflexivity|exact X].
  - unfold sr_normalize_core_thread. now rewrite (core_normalize_alike _ _ H).
Qed.
Lemma core_crash_alike s s' : cores_alike s s' -> sr_core_stacktrace_find_crash_thread s' = sr_core_stacktrace_find_crash_thread s.
Proof.
  intros (_ & C & _ & _ & T). unfold sr_core_stacktrace_find_crash_thread. rewrite C. destruct (cs_crash_thread s); [reflexivity|].
  symmetry. pose proof T as T0. destruct T as [|t u l l' E T]; [reflexivity|]. destruct T as [|t2 u2 l l' E2 T]; [reflexivity|].
  apply find_index_related. eapply Forall2_impl'; [|exact T0]. intros x y H. unfold sr_core_thread_find_exit_frame.
  now rewrite (find_exit_rel core_alike sr_core_thread_is_exit_frame core_exit_alike _ _ H).
Qed.
Lemma core_short_alike s s' n : cores_alike s s' -> sr_stacktrace_to_short_text (SCore s') n = sr_stacktrace_to_short_text (SCore s) n.
Proof.
  intros H. cbn [sr_stacktrace_to_short_text]. unfold stacktrace_to_short_text. cbn [sr_stacktrace_find_crash_thread]. rewrite (core_crash_alike s s' H).
  destruct (sr_core_stacktrace_find_crash_thread s) as [i|]; [|reflexivity]. destruct H as (_ & _ & _ & _ & T). pose proof (Forall2_nth _ _ _ i T) as N.
  destruct (nth_error (cs_threads s) i) as [t|], (nth_error (cs_threads s') i) as [u|]; try contradiction; [|reflexivity]. cbn [option_map sr_thread_frames]. f_equal.
  generalize 0%Z. induction N as [|f g l l' X N IH]; intros k; cbn [map short_text_loop]; [reflexivity|]. cbn [sr_frame_append_to_str].
  rewrite (core_text_alike f g X). destruct (sr_core_frame_append_to_str g); cbn [bind]; try reflexivity. now rewrite IH.
Qed.
Lemma threads_normalize_alike s s' : cores_alike s s' -> map sr_normalize_core_thread (cs_threads s') = map sr_normalize_core_thread (cs_threads s).
Proof.
  intros (_ & _ & _ & _ & T). induction T as [|t u l l' X T IH]; [reflexivity|]. cbn [map]. f_equal; [|exact IH]. unfold sr_normalize_core_thread. now rewrite (core_normalize_alike _ _ X).
Qed.

(** ** gdb *)
Lemma gdb_with_alike f g n m : gdb_alike f g -> n = m -> gdb_alike (gdb_with_name f n) (gdb_with_name g m).
Proof. intros (E1 & E2 & E3 & E4 & E5 & E6 & E7 & P) ->. unfold gdb_alike, gdb_with_name. cbn. now repeat split. Qed.
Lemma gdb_exit_alike f g : gdb_alike f g -> sr_gdb_is_exit_frame f = sr_gdb_is_exit_frame g.
Proof.
  intros (E1 & E2 & E3 & E4 & E5 & E6 & E7 & A). unfold sr_gdb_is_exit_frame.
  assert (J : forall r, In r gdb_exit_table -> incl (snd r) looked_for) by (intros r R; exact (incl_tran (incl_table _ r R) incl_gdb_exit)).
  induction gdb_exit_table as [|r tb IH]; [reflexivity|]. cbn [existsb]. rewrite IH by (intros x X; apply J; now right). f_equal.
  unfold sr_gdb_frame_calls_func. rewrite E1. destruct (gf_function_name f) as [n|]; [|reflexivity]. destruct (str_eqb n (fst r)); [|reflexivity].
  apply file_match_alike; [exact A|]. apply J. now left.
Qed.
Lemma gdb_normalize_alike l l' : Forall2 gdb_alike l l' -> Forall2 gdb_alike (sr_normalize_gdb_frames l) (sr_normalize_gdb_frames l').
Proof.
  intros H. unfold sr_normalize_gdb_frames.
  apply (cut_exit_rel gdb_alike sr_gdb_is_exit_frame _ _ gdb_exit_alike) in H.
  apply (map_rel gdb_alike gdb_alike sr_normalize_gdb_frame) in H.
  2: { intros f g A. unfold sr_normalize_gdb_frame. pose proof A as (E & _ & _ & _ & _ & _ & _ & P).
       destruct (gf_source_file f), (gf_source_file g); try (now apply gdb_with_alike; [|rewrite E]); try exact A;
         destruct P as [P|(u & v & r & _ & _ & P1 & P2)]; try discriminate P; try discriminate P1; discriminate P2. }
  apply (map_rel gdb_alike gdb_alike gdb_rename) in H.
  2: { intros f g A. unfold gdb_rename. pose proof A as (E & _ & _ & _ & _ & _ & _ & P). rewrite E, <- (rename_alike _ _ _ P).
       destruct (find_new_function_name_glibc (gf_function_name f) (gf_source_file f)); [|exact A]. now apply gdb_with_alike. }
  apply (sweep_rel gdb_alike gdb_removable gdb_removable_with_above) with (k := []) (k' := []) in H; [| | |constructor].
  - apply (drop_first_rel gdb_alike gdb_null_frame) in H.
    2: { intros f g (E1 & E2 & E3 & E4 & E5 & E6 & E7 & P). unfold gdb_null_frame. now rewrite E1, E6. }
    apply (drop_last_rel gdb_alike gdb_null_frame) in H.
    2: { intros f g (E1 & E2 & E3 & E4 & E5 & E6 & E7 & P). unfold gdb_null_frame. now rewrite E1, E6. }
    apply (merge_rel gdb_alike gdb_same_call) in H; [exact H|]. intros x y x' y' (E1 & _) (E2 & _). unfold gdb_same_call. now rewrite E1, E2.
  - intros f g (E1 & _ & _ & _ & _ & _ & _ & P). unfold gdb_removable. rewrite E1. now apply removable_alike.
  - intros f g A. unfold gdb_removable_with_above. rewrite (gdb_exit_alike f g A). pose proof A as (E1 & _ & _ & _ & _ & _ & _ & P). rewrite E1. now rewrite (above_alike _ _ _ P).
Qed.
Lemma gdb_duphash_alike t u : Forall2 gdb_alike (gt_frames t) (gt_frames u) ->
  forall sha1 n prefix flags, sr_thread_get_duphash sha1 (TGdb u) n prefix flags = sr_thread_get_duphash sha1 (TGdb t) n prefix flags.
Proof.
  intros H sha1 n prefix flags.
  assert (D : forall l l', Forall2 gdb_alike l l' -> forall n b, duphash_loop flags (map FGdb l) n b = duphash_loop flags (map FGdb l') n b).
  { intros l l' F. apply (dup_loop_rel (fun f g => exists a b, f = FGdb a /\ g = FGdb b /\ gdb_alike a b) flags).
    - intros f g (a & b & -> & -> & E1 & E2 & E3 & E4 & E5 & _). cbn. unfold gdb_duphash_text. now rewrite E1, E2, E5.
    - induction F as [|x y a a' X F IH]; cbn; constructor; [|exact IH]. do 2 eexists. split; [reflexivity|]. split; [reflexivity|exact X]. }
  unfold sr_thread_get_duphash. destruct (flag_nonormalize flags); cbn [bind sr_thread_normalize sr_thread_frames sr_normalize_gdb_thread gt_frames].
  - now rewrite (D _ _ H).
  - now rewrite (D _ _ (gdb_normalize_alike _ _ H)).
Qed.

(** ** Deciding that a name is ordinary *)
Lemma ordinary_check u : forallb (fun pat => match pat with [] => true | _ => negb (NormModel.strstr (home u []) pat) end) looked_for = true -> ~ In "/"%char u -> ordinary u.
Proof.
  intros H N. split; [exact N|]. intros pat I' Ne F. rewrite forallb_forall in H. specialize (H pat I'). destruct pat; [now apply Ne|]. apply negb_true_iff in H.
  assert (X : NormModel.strstr (home u []) (a :: pat) = true) by (apply strstr_iff; exact F). rewrite X in H. discriminate H.
Qed.
