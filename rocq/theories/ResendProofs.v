(** * Stack traces sent on: proofs. *)
From Verif Require Import Base JsonSpec Types JsonTypesModel JsonTypesSpec JsonRoundtrip JsonRoundtrip2 JsonRoundtrip3 JsonReaders TextModel ReportModel JsonKeepSpec JsonKeepProofs P_Json ResendSpec.
Open Scope Z_scope.

(** ** What is received can be sent *)
Lemma sendable_iff s : sendable s <-> members_in_range s /\ clean s.
Proof.
  split.
  - intros (R & text & E & V). split; [exact R|]. destruct s; cbn in E; try discriminate; injection E as <-.
    + now apply core_valid_iff. + now apply python_valid_iff. + now apply koops_valid_iff. + now apply java_valid_iff.
    + now apply ruby_valid_iff. + now apply js_valid_iff.
  - intros (R & C). split; [exact R|]. destruct s; cbn in C; try tauto; eexists; (split; [reflexivity|]).
    + now apply core_valid_iff. + now apply python_valid_iff. + now apply koops_valid_iff. + now apply java_valid_iff.
    + now apply ruby_valid_iff. + now apply js_valid_iff.
Qed.
Lemma clip32_u32 z : u32 z -> u32 (clip32 z).
Proof. unfold u32, two32, clip32. lia. Qed.
Lemma clip64_u64 z : u64 z -> u64 (clip64 z).
Proof. unfold u64, two64, clip64. lia. Qed.
Lemma clip_address_u64 z : u64 z -> u64 (clip_address z).
Proof. unfold clip_address. destruct (z =? ulong_max); [tauto|apply clip64_u64]. Qed.
Lemma js_platform_cases p : js_platform_as_read p = 0 \/ js_platform_as_read p = 1 \/ js_platform_as_read p = 16 \/ js_platform_as_read p = 17.
Proof. unfold js_platform_as_read, known1. destruct (p =? 0); [tauto|]. destruct (p mod 16 =? 1), (p / 16 =? 1); cbn; tauto. Qed.
Lemma core_frames_read s : core_frames (core_as_read s) = map core_frame_as_read (core_frames s).
Proof. unfold core_frames, core_as_read. cbn. rewrite concat_map, !map_map. reflexivity. Qed.
Lemma java_frames_read s : java_frames (java_as_read s) = map java_frame_as_read (java_frames s).
Proof. unfold java_frames, java_as_read. cbn. rewrite concat_map, !map_map. reflexivity. Qed.
Lemma range_read s : members_in_range s -> members_in_range (as_read s).
Proof.
  destruct s as [s|s|s|s|s|s|s]; cbn [members_in_range as_read].
  - intros (A & B). split; [exact A|]. rewrite core_frames_read. apply List.Forall_map. eapply Forall_impl; [|exact B]. intros f (X & Y). cbn. split; now apply clip_address_u64.
  - intros H. apply List.Forall_map. eapply Forall_impl; [|exact H]. intros f. apply clip32_u32.
  - intros ((A & B) & M). split; [|exact M]. split; [exact A|]. cbn. apply List.Forall_map. eapply Forall_impl; [|exact B].
    intros f (X1 & X2 & X3 & X4 & X5 & X6). cbn. repeat split; try (apply clip64_u64; assumption); apply clip64_u64 in X1, X2, X3, X4, X5, X6; unfold u64 in *; cbn in *; tauto.
  - intros H. unfold java_range. rewrite java_frames_read. apply List.Forall_map. eapply Forall_impl; [|exact H]. intros f U. cbn. destruct (vf_file_name f); [now apply clip32_u32|unfold u32, two32; lia].
  - tauto.
  - intros H. apply List.Forall_map. eapply Forall_impl; [|exact H]. intros f (X & Y & W). cbn. split; [|split]; now apply clip32_u32.
  - intros (A & H). split; [cbn; destruct (js_platform_cases (js_platform s)) as [->|[->|[->| ->]]]; unfold u32, two32; lia|].
    apply List.Forall_map. eapply Forall_impl; [|exact H]. intros f (X & Y). cbn. split; now apply clip32_u32.
Qed.
Lemma clip32_0 z : clip32 z = 0 -> z = 0.
Proof. unfold clip32. lia. Qed.
Lemma clean_read s : clean s -> clean (as_read s).
Proof.
  destruct s as [s|s|s|s|s|s|s]; cbn [clean as_read].
  - intros ((A & B) & C). split; [|intros E; apply map_eq_nil in E; tauto]. split; [exact A|]. rewrite core_frames_read. apply List.Forall_map. eapply Forall_impl; [|exact B]. intros f H. exact H.
  - intros (A & B). split; [exact A|]. apply List.Forall_map. eapply Forall_impl; [|exact B]. intros f (N & K). split; [|exact K].
    intros (X & Y & Z'). apply N. cbn in *. split; [exact X|]. split; [now apply clip32_0|exact Z'].
  - intros (A & B & C & D). split; [exact A|]. split; [exact B|]. split; [exact C|]. apply List.Forall_map. eapply Forall_impl; [|exact D]. intros f H. exact H.
  - intros (A & B). split; [cbn; apply List.Forall_map; exact A|]. rewrite java_frames_read. apply List.Forall_map. eapply Forall_impl; [|exact B]. intros f H. exact H.
  - tauto.
  - intros (A & B). split; [exact A|]. apply List.Forall_map. eapply Forall_impl; [|exact B]. intros f (N & K). split; [|exact K].
    intros (X & Y & Z' & W & W'). apply N. cbn in *. split; [exact X|]. split; [now apply clip32_0|]. split; [exact Z'|]. split; now apply clip32_0.
  - intros (A & B). split; [exact A|]. apply List.Forall_map. eapply Forall_impl; [|exact B]. intros f (N & K). split; [|exact K].
    intros (X & Y & Z' & W). apply N. cbn in *. split; [exact X|]. split; [now apply clip32_0|]. split; [now apply clip32_0|exact W].
Qed.
Lemma sendable_read s : sendable s -> sendable (as_read s).
Proof. rewrite !sendable_iff. intros (A & B). split; [now apply range_read|now apply clean_read]. Qed.

(** ** Hops *)
Fixpoint reads (n : nat) (s : stacktrace) : stacktrace := match n with O => s | S n => as_read (reads n s) end.
Lemma sendable_reads n s : sendable s -> sendable (reads n s).
Proof. intros H. induction n; [exact H|]. cbn. now apply sendable_read. Qed.
Lemma hops_iff n s s' : sendable s -> hops n s s' <-> s' = reads n s.
Proof.
  intros D. revert s'. induction n as [|n IH]; intros s'; cbn; split.
  - intros H. inversion H. reflexivity.
  - intros ->. constructor.
  - intros H. inversion H as [|? ? s1 ? A B]. subst. apply IH in A. subst s1. apply received_iff in B; [exact B|]. now apply sendable_reads.
  - intros ->. econstructor; [now apply IH|]. apply received_iff; [now apply sendable_reads|reflexivity].
Qed.

(** ** Settling *)
Lemma clip32_twice z : clip32 (clip32 z) = clip32 z.
Proof. unfold clip32. lia. Qed.
Lemma clip64_twice z : clip64 (clip64 z) = clip64 z.
Proof. unfold clip64. lia. Qed.
Lemma clip_address_twice z : clip_address (clip_address z) = clip_address z.
Proof.
  unfold clip_address, ulong_max, two64. destruct (z =? _) eqn:E; [now rewrite E|]. destruct (clip64 z =? _); [reflexivity|apply clip64_twice].
Qed.
Lemma with_name_twice o b : with_name o (with_name o b) = with_name o b.
Proof. now destruct o. Qed.
Lemma core_frame_twice f : core_frame_as_read (core_frame_as_read f) = core_frame_as_read f.
Proof. unfold core_frame_as_read. cbn. rewrite !clip_address_twice. now destruct (cf_fingerprint f). Qed.
Lemma python_frame_twice f : python_frame_as_read (python_frame_as_read f) = python_frame_as_read f.
Proof. unfold python_frame_as_read. cbn. now rewrite !with_name_twice, clip32_twice. Qed.
Lemma ruby_frame_twice f : ruby_frame_as_read (ruby_frame_as_read f) = ruby_frame_as_read f.
Proof. unfold ruby_frame_as_read. cbn. now rewrite !with_name_twice, !clip32_twice. Qed.
Lemma js_frame_twice f : js_frame_as_read (js_frame_as_read f) = js_frame_as_read f.
Proof. unfold js_frame_as_read. cbn. now rewrite !clip32_twice. Qed.
Lemma java_frame_twice f : java_frame_as_read (java_frame_as_read f) = java_frame_as_read f.
Proof. unfold java_frame_as_read. cbn. destruct (vf_file_name f); [now rewrite clip32_twice|reflexivity]. Qed.
Lemma koops_frame_twice f : koops_frame_as_read (koops_frame_as_read f) = koops_frame_as_read f.
Proof. unfold koops_frame_as_read. cbn. now rewrite !clip64_twice. Qed.
Lemma map_twice {A} (f : A -> A) l : (forall x, f (f x) = f x) -> map f (map f l) = map f l.
Proof. intros H. rewrite map_map. apply map_ext. exact H. Qed.
Lemma core_twice s : core_as_read (core_as_read s) =
  mk_core_stacktrace (cs_signal s) (cs_executable s) (core_crash_as_read (core_as_read s)) (cs_threads (core_as_read s)) (cs_only_crash_thread s).
Proof.
  unfold core_as_read at 1. f_equal; try reflexivity. cbn [core_as_read cs_threads]. apply map_twice. intros t. cbn. f_equal. apply map_twice, core_frame_twice.
Qed.
Lemma js_platform_twice p : js_platform_as_read (js_platform_as_read (js_platform_as_read p)) = js_platform_as_read p.
Proof. destruct (js_platform_cases p) as [->|[->|[->| ->]]]; reflexivity. Qed.
(** crash threads *)
Definition has_frames (s : core_stacktrace) (i : nat) : bool := match nth_error (cs_threads s) i with Some t => match ct_frames t with [] => false | _ => true end | None => false end.
Definition written (s : core_stacktrace) : nat := match cs_crash_thread s with Some i => i | None => O end.
Lemma crash_read s : core_crash_as_read s = if has_frames s (written s) then Some (written s) else None.
Proof. unfold core_crash_as_read, has_frames. fold (written s). destruct (nth_error _ _) as [t|]; [|reflexivity]. now destruct (ct_frames t). Qed.
Lemma has_frames_read s i : has_frames (core_as_read s) i = has_frames s i.
Proof. unfold has_frames. cbn. rewrite nth_error_map. destruct (nth_error _ _) as [t|]; cbn; [|reflexivity]. now destruct (ct_frames t). Qed.
Lemma crash_twice s : core_crash_as_read (core_as_read s) =
  if has_frames s (written s) then Some (written s) else if has_frames s 0 then Some O else None.
Proof.
  rewrite crash_read, has_frames_read. unfold written at 1 2. cbn [core_as_read cs_crash_thread]. rewrite crash_read.
  destruct (has_frames s (written s)) eqn:E; [now rewrite E|]. reflexivity.
Qed.
Lemma has_frames_iff s i : has_frames s i = true <-> exists u, nth_error (cs_threads s) i = Some u /\ ct_frames u <> [].
Proof.
  unfold has_frames. destruct (nth_error _ _) as [t|]; split; try discriminate.
  - intros H. exists t. split; [reflexivity|]. destruct (ct_frames t); [discriminate H|discriminate].
  - intros (u & E & N). injection E as ->. destruct (ct_frames u); [tauto|reflexivity].
  - intros (u & E & _). discriminate E.
Qed.
Lemma settles_iff s : sendable s -> as_read (as_read s) = as_read s <-> settles s.
Proof.
  intros D. destruct s as [s|s|s|s|s|s|s]; cbn [as_read settles].
  - apply sendable_iff in D. destruct D as (_ & _ & D). rewrite core_twice.
    transitivity (core_crash_as_read (core_as_read s) = core_crash_as_read s). { split; [intros E; injection E; tauto|intros ->; reflexivity]. }
    rewrite crash_twice, crash_read. destruct (has_frames s (written s)) eqn:E.
    + split; [|reflexivity]. intros _. left. apply has_frames_iff in E. exact E.
    + split.
      * intros H. right. destruct (has_frames s 0) eqn:F; [discriminate H|]. destruct (cs_threads s) as [|u l] eqn:T; [tauto|]. exists u. split; [reflexivity|].
        unfold has_frames in F. rewrite T in F. cbn in F. destruct (ct_frames u); [reflexivity|discriminate F].
      * intros [H|(u & H & K)]; [apply has_frames_iff in H; unfold written in E; congruence|]. replace (has_frames s 0) with false; [reflexivity|].
        unfold has_frames. now rewrite H, K.
  - split; [tauto|]. intros _. unfold python_as_read. cbn. now rewrite (map_twice _ _ python_frame_twice).
  - split; [tauto|]. intros _. unfold koops_as_read. cbn. now rewrite (map_twice _ _ koops_frame_twice).
  - split; [tauto|]. intros _. unfold java_as_read. cbn. rewrite map_twice; [reflexivity|]. intros t. cbn. now rewrite (map_twice _ _ java_frame_twice).
  - tauto.
  - split; [tauto|]. intros _. unfold ruby_as_read. cbn. now rewrite (map_twice _ _ ruby_frame_twice).
  - unfold js_as_read. cbn. rewrite (map_twice _ _ js_frame_twice).
    transitivity (js_platform_as_read (js_platform_as_read (js_platform s)) = js_platform_as_read (js_platform s)). { split; [congruence|intros ->; reflexivity]. }
    unfold js_platform_as_read at 2 3, known1. destruct (Z.eqb_spec (js_platform s) 0) as [E|E]; [split; [tauto|reflexivity]|].
    destruct (Z.eqb_spec (js_platform s mod 16) 1), (Z.eqb_spec (js_platform s / 16) 1); (split; [try discriminate; tauto|try reflexivity; tauto]).
Qed.
Lemma core_third s : core_crash_as_read (core_as_read (core_as_read s)) = core_crash_as_read (core_as_read s).
Proof.
  rewrite (crash_twice (core_as_read s)), (crash_twice s), !has_frames_read.
  replace (written (core_as_read s)) with (match core_crash_as_read s with Some i => i | None => O end) by reflexivity.
  rewrite crash_read. destruct (has_frames s (written s)) eqn:E; [now rewrite E|]. now destruct (has_frames s 0).
Qed.
Lemma third_hop s : sendable s -> reads 3 s = match s with SJs _ => reads 1 s | _ => reads 2 s end.
Proof.
  intros D. destruct s as [s|s|s|s|s|s|s]; cbn [reads as_read].
  - f_equal. rewrite (core_twice (core_as_read s)), (core_third s). replace (cs_threads (core_as_read (core_as_read s))) with (cs_threads (core_as_read s)) by (now rewrite core_twice). symmetry. rewrite core_twice at 1. reflexivity.
  - apply (settles_iff (SPython s)) in D. cbn in D. destruct D as (_ & D). specialize (D Logic.I). cbn in D. congruence.
  - apply (settles_iff (SKoops s)) in D. cbn in D. destruct D as (_ & D). specialize (D Logic.I). cbn in D. congruence.
  - apply (settles_iff (SJava s)) in D. cbn in D. destruct D as (_ & D). specialize (D Logic.I). cbn in D. congruence.
  - reflexivity.
  - apply (settles_iff (SRuby s)) in D. cbn in D. destruct D as (_ & D). specialize (D Logic.I). cbn in D. congruence.
  - unfold js_as_read. cbn. rewrite !(map_twice _ _ js_frame_twice), js_platform_twice. reflexivity.
Qed.
