(** * Sending a stack trace as JSON keeps its hashes, short text, reason and crash thread. *)
From Verif Require Import Base JsonSpec Types NormTables UtilsModel JsonTypesModel JsonTypesSpec NormModel NormSpec NormProofs CrashModel CrashSpec CrashProofs TextModel TextProofs SystemModel ReportModel ReportSpec
  JsonRoundtrip JsonRoundtrip2 JsonRoundtrip3 JsonKeepSpec.
Open Scope Z_scope.

(** ** What is received *)
Definition as_read (s : stacktrace) : stacktrace :=
  match s with
  | SCore s => SCore (core_as_read s) | SPython s => SPython (python_as_read s) | SKoops s => SKoops (koops_as_read s)
  | SJava s => SJava (java_as_read s) | SRuby s => SRuby (ruby_as_read s) | SJs s => SJs (js_as_read s) | SGdb s => SGdb s
  end.
Lemma sent_as s : sendable s -> exists text, sr_stacktrace_to_json s = Some text /\
  survives text (sr_stacktrace_from_json (stacktrace_type s)) (Some (as_read s)).
Proof.
  intros (R & text & E & V).
  assert (K : forall A (x : A) (f : A -> stacktrace) t read, survives t read x -> survives t (fun v => to_option f (read v)) (Some (f x))).
  { intros A x f t read (H1 & H2). split; [exact H1|]. intros v Hv. now rewrite (H2 v Hv). }
  destruct s as [s|s|s|s|s|s|s]; cbn [members_in_range sr_stacktrace_to_json stacktrace_type as_read] in *; try tauto;
    injection E as <-; eexists; (split; [reflexivity|]).
  - pose proof V as W. apply core_valid_iff in W. exact (K _ _ SCore _ _ (core_survives s R (proj1 W) (proj2 W))).
  - exact (K _ _ SPython _ _ (python_survives s R V)).
  - apply koops_valid_iff in V. exact (K _ _ SKoops _ _ (koops_survives s (proj1 R) V (proj2 R))).
  - apply java_valid_iff in V. exact (K _ _ SJava _ _ (java_survives s R V)).
  - exact (K _ _ SRuby _ _ (ruby_survives s R V)).
  - exact (K _ _ SJs _ _ (js_survives s R V)).
Qed.
Lemma received_iff s s' : sendable s -> received s s' <-> s' = as_read s.
Proof.
  intros H. destruct (sent_as s H) as (text & E & (v & V) & R). split.
  - intros (text' & v' & E' & V' & R'). rewrite E in E'. injection E' as <-. rewrite (R _ V') in R'. congruence.
  - intros ->. exists text, v. auto.
Qed.
(** a thread received *)
Definition thread_read (t : thread) : thread :=
  match t with
  | TCore t => TCore (mk_core_thread (map core_frame_as_read (ct_frames t))) | TPython s => TPython (python_as_read s)
  | TKoops s => TKoops (koops_as_read s) | TJava t => TJava (mk_java_thread (vt_name t) (map java_frame_as_read (vt_frames t)))
  | TRuby s => TRuby (ruby_as_read s) | TJs s => TJs (js_as_read s) | TGdb t => TGdb t
  end.
Definition frame_read (f : frame) : frame :=
  match f with
  | FCore f => FCore (core_frame_as_read f) | FPython f => FPython (python_frame_as_read f) | FKoops f => FKoops (koops_frame_as_read f)
  | FJava f => FJava (java_frame_as_read f) | FRuby f => FRuby (ruby_frame_as_read f) | FJs f => FJs (js_frame_as_read f) | FGdb f => FGdb f
  end.
Lemma threads_read s : sr_stacktrace_threads (as_read s) = map thread_read (sr_stacktrace_threads s).
Proof. destruct s as [s|s|s|s|s|s|s]; try reflexivity; cbn; rewrite ?map_map; reflexivity. Qed.
Lemma frames_read t : sr_thread_frames (thread_read t) = map frame_read (sr_thread_frames t).
Proof. destruct t as [t|t|t|t|t|t|t]; try reflexivity; cbn; rewrite ?map_map; try reflexivity. Qed.

(** ** Numbers *)
Lemma clip32_fits z : fits32 z <-> clip32 z = z.
Proof. unfold fits32, clip32. lia. Qed.
Lemma clip64_fits z : fits64 z <-> clip64 z = z.
Proof. unfold fits64, clip64. lia. Qed.
Lemma clip_address_fits z : fits_address z <-> clip_address z = z.
Proof.
  unfold fits_address, clip_address. destruct (Z.eqb_spec z ulong_max) as [->|N]; [tauto|]. unfold clip64. lia.
Qed.
Lemma clip32_pos z : 0 <= z -> 0 <= clip32 z. Proof. unfold clip32. lia. Qed.
Lemma clip64_pos z : 0 <= z -> 0 <= clip64 z. Proof. unfold clip64. lia. Qed.
Lemma clip_address_pos z : 0 <= z -> 0 <= clip_address z.
Proof. unfold clip_address. destruct (z =? ulong_max); [auto|]. apply clip64_pos. Qed.
Lemma clip_address_zero z : (clip_address z =? 0) = (z =? 0).
Proof. unfold clip_address. destruct (Z.eqb_spec z ulong_max) as [->|N]; [reflexivity|]. unfold clip64. destruct (Z.eqb_spec z 0), (Z.eqb_spec (Z.min z 9223372036854775807) 0); lia || reflexivity. Qed.

(** ** Normalization does not look at what is clipped *)
Section Steps.
Context {F : Type} (g : F -> F).
Lemma find_exit_map (p : F -> bool) : (forall x, p (g x) = p x) -> forall l i r, find_exit_frame p i (map g l) r = find_exit_frame p i l r.
Proof. intros H l. induction l as [|x l IH]; intros i r; cbn; [reflexivity|]. now rewrite H, IH. Qed.
Lemma cut_exit_map p l : (forall x, p (g x) = p x) -> cut_exit p (map g l) = map g (cut_exit p l).
Proof.
  intros H. unfold cut_exit. rewrite find_exit_map by exact H. destruct (find_exit_frame p 0 l None) as [i|]; [|reflexivity].
  rewrite skipn_map. now destruct (skipn i l).
Qed.
Lemma sweep_map (p a : F -> bool) : (forall x, p (g x) = p x) -> (forall x, a (g x) = a x) ->
  forall l k, sweep p a (map g k) (map g l) = map g (sweep p a k l).
Proof.
  intros H1 H2 l. induction l as [|x l IH]; intros k; cbn; [reflexivity|]. rewrite H1, H2.
  destruct (a x); rewrite ?orb_true_r, ?orb_false_r.
  - exact (IH []).
  - destruct (p x); [exact (IH k)|]. rewrite <- (IH (k ++ [x])), map_app. reflexivity.
Qed.
Lemma drop_first_map (p : F -> bool) l : (forall x, p (g x) = p x) -> drop_first p (map g l) = map g (drop_first p l).
Proof. intros H. destruct l as [|x l]; cbn; [reflexivity|]. rewrite H. now destruct (p x). Qed.
Lemma drop_last_map (p : F -> bool) l : (forall x, p (g x) = p x) -> drop_last p (map g l) = map g (drop_last p l).
Proof.
  intros H. induction l as [|x l IH]; [reflexivity|]. destruct l as [|y l]; cbn [map drop_last] in *.
  - rewrite H. now destruct (p x).
  - now rewrite IH.
Qed.
Lemma merge_map (s : F -> F -> bool) : (forall x y, s (g x) (g y) = s x y) -> forall l, merge_recursive s (map g l) = map g (merge_recursive s l).
Proof.
  intros H. assert (M : forall l p, merge_from s (g p) (map g l) = map g (merge_from s p l)).
  { intros l. induction l as [|x l IH]; intros p; cbn; [reflexivity|]. rewrite H. destruct (s p x); [apply IH|]. cbn. now rewrite IH. }
  intros [|x l]; cbn; [reflexivity|]. now rewrite M.
Qed.
End Steps.
Lemma core_normalize_read l : sr_normalize_core_frames (map core_frame_as_read l) = map core_frame_as_read (sr_normalize_core_frames l).
Proof.
  unfold sr_normalize_core_frames.
  rewrite cut_exit_map by reflexivity.
  rewrite (map_map core_frame_as_read core_prefix).
  rewrite (map_ext (fun x => core_prefix (core_frame_as_read x)) (fun x => core_frame_as_read (core_prefix x))) by reflexivity.
  rewrite <- (map_map core_prefix core_frame_as_read).
  rewrite (map_map core_frame_as_read core_rename).
  rewrite (map_ext (fun x => core_rename (core_frame_as_read x)) (fun x => core_frame_as_read (core_rename x))).
  2: { intros f. unfold core_rename. cbn [core_frame_as_read cf_function_name cf_file_name]. now destruct (find_new_function_name_glibc _ _). }
  rewrite <- (map_map core_rename core_frame_as_read).
  match goal with |- context [sweep ?p ?a [] (map ?g ?l)] => change (sweep p a [] (map g l)) with (sweep p a (map g []) (map g l)) end.
  rewrite sweep_map by reflexivity.
  rewrite (map_map core_frame_as_read core_anonymize).
  rewrite (map_ext (fun x => core_anonymize (core_frame_as_read x)) (fun x => core_frame_as_read (core_anonymize x))) by reflexivity.
  rewrite <- (map_map core_anonymize core_frame_as_read).
  assert (N : forall x, core_null_frame (core_frame_as_read x) = core_null_frame x).
  { intros x. unfold core_null_frame. cbn [core_frame_as_read cf_address cf_function_name]. now rewrite clip_address_zero. }
  rewrite (drop_first_map core_frame_as_read core_null_frame _ N).
  rewrite (drop_last_map core_frame_as_read core_null_frame _ N).
  now rewrite merge_map by reflexivity.
Qed.
Lemma koops_cut_read f : koops_cut_suffix (koops_frame_as_read f) = koops_frame_as_read (koops_cut_suffix f).
Proof.
  unfold koops_cut_suffix. cbn [koops_frame_as_read kf_function_name]. destruct (kf_function_name f) as [n|]; [|reflexivity].
  destruct (strchrnul n ".") as [b [|c r]]; reflexivity.
Qed.
Lemma koops_remove_read l : koops_remove (map koops_frame_as_read l) =
  match koops_remove l with Ok r => Ok (map koops_frame_as_read r) | Fail => Fail | UB => UB end.
Proof.
  induction l as [|f l IH]; [reflexivity|]. cbn [map koops_remove]. rewrite IH. cbn [koops_frame_as_read kf_function_name kf_module_name].
  destruct (bsearch (kf_function_name f) _) as [b| |]; cbn [bind]; try reflexivity.
  destruct (koops_remove l) as [r| |]; cbn [bind]; try reflexivity. destruct (kf_module_name f); [reflexivity|]. now destruct b.
Qed.
Lemma koops_normalize_read l : sr_normalize_koops_frames (map koops_frame_as_read l) =
  match sr_normalize_koops_frames l with Ok r => Ok (map koops_frame_as_read r) | Fail => Fail | UB => UB end.
Proof.
  unfold sr_normalize_koops_frames. rewrite map_map, (map_ext _ _ koops_cut_read), <- (map_map koops_cut_suffix koops_frame_as_read).
  apply koops_remove_read.
Qed.
Lemma normalize_read t : sr_thread_normalize (thread_read t) =
  match sr_thread_normalize t with Ok u => Ok (thread_read u) | Fail => Fail | UB => UB end.
Proof.
  destruct t as [t|t|t|t|t|t|t]; try reflexivity; cbn [thread_read sr_thread_normalize].
  - unfold sr_normalize_core_thread. cbn [ct_frames]. now rewrite core_normalize_read.
  - cbn [koops_as_read ks_frames ks_version ks_taint ks_modules ks_raw_oops ks_reason]. rewrite koops_normalize_read.
    destruct (sr_normalize_koops_frames (ks_frames t)) as [r| |]; reflexivity.
Qed.

(** ** Normalization keeps what the hash needs *)
Lemma remove_prefixes_none n : remove_prefixes n = None <-> n = None.
Proof.
  unfold remove_prefixes, remove_func_prefix. destruct n as [n|]; [|tauto]. split; [|discriminate].
  repeat (match goal with |- context [if starts_with ?p ?f then _ else _] => destruct (starts_with p f) end); discriminate.
Qed.
Lemma rename_none n file : n = None -> find_new_function_name_glibc n file = None.
Proof.
  intros ->. unfold find_new_function_name_glibc. generalize arch_functions. intros l.
  assert (Z : forall t, any_call t None file = false). { intros t. unfold any_call. induction t as [|[a b] t IH]; [reflexivity|exact IH]. }
  induction l as [|x l IH]; [reflexivity|]. cbn [find]. rewrite Z. exact IH.
Qed.
Definition same_numbers (f g : core_frame) : Prop :=
  cf_address g = cf_address f /\ cf_build_id g = cf_build_id f /\ cf_build_id_offset g = cf_build_id_offset f /\
  cf_fingerprint g = cf_fingerprint f /\ (cf_function_name g = None <-> cf_function_name f = None).
Lemma dup_fits_same f g : same_numbers f g -> dup_fits (FCore f) -> dup_fits (FCore g).
Proof.
  intros (E1 & E2 & E3 & E4 & E5). cbn [dup_fits]. rewrite E1, E2, E3, E4.
  destruct (cf_build_id f); [auto|]. destruct (cf_function_name f), (cf_function_name g); auto.
  intros _. destruct E5 as [E5 _]. discriminate (E5 eq_refl).
Qed.
Section Kept.
Context {F : Type} (P : F -> Prop).
Lemma cut_exit_keeps p l : Forall P l -> Forall P (cut_exit p l).
Proof.
  intros H. unfold cut_exit. destruct (find_exit_frame p 0 l None) as [i|]; [|exact H].
  assert (K : Forall P (skipn i l)). { rewrite <- (firstn_skipn i l) in H. apply Forall_app in H. tauto. }
  destruct K; [constructor|assumption].
Qed.
Lemma sweep_keeps p a : forall l k, Forall P k -> Forall P l -> Forall P (sweep p a k l).
Proof.
  intros l. induction l as [|x l IH]; intros k Hk Hl; cbn; [exact Hk|]. inversion Hl; subst.
  assert (K : Forall P (if a x then [] else k)) by (destruct (a x); [constructor|assumption]).
  destruct (p x || a x); apply IH; auto. apply Forall_app. auto.
Qed.
Lemma drop_first_keeps p l : Forall P l -> Forall P (drop_first p l).
Proof. intros H. destruct H; cbn; [constructor|]. destruct (p x); auto. Qed.
Lemma drop_last_keeps p l : Forall P l -> Forall P (drop_last p l).
Proof.
  induction l as [|x l IH]; intros H; [constructor|]. inversion H; subst. destruct l as [|y l].
  - cbn. destruct (p x); auto.
  - change (drop_last p (x :: y :: l)) with (x :: drop_last p (y :: l)). constructor; auto.
Qed.
Lemma merge_keeps s l : Forall P l -> Forall P (merge_recursive s l).
Proof.
  assert (M : forall l p, Forall P l -> Forall P (merge_from s p l)).
  { intros m. induction m as [|x m IH]; intros p H; cbn; [constructor|]. inversion H; subst. destruct (s p x); auto. }
  intros H. destruct H; cbn; constructor; auto.
Qed.
Lemma map_keeps f l : (forall x, P x -> P (f x)) -> Forall P l -> Forall P (map f l).
Proof. intros H. induction 1; cbn; constructor; auto. Qed.
End Kept.
Lemma core_normalize_keeps (P : core_frame -> Prop) l : (forall f g, same_numbers f g -> P f -> P g) -> Forall P l -> Forall P (sr_normalize_core_frames l).
Proof.
  intros H HP. unfold sr_normalize_core_frames.
  apply merge_keeps, drop_last_keeps, drop_first_keeps, map_keeps; [intros x; apply H; unfold same_numbers; cbn; tauto|].
  apply sweep_keeps; [constructor|]. apply map_keeps.
  { intros x. apply H. unfold same_numbers, core_rename. destruct (cf_function_name x) as [n|] eqn:E.
    - destruct (find_new_function_name_glibc _ _); cbn; rewrite ?E; repeat split; discriminate.
    - rewrite rename_none by reflexivity. rewrite E. tauto. }
  apply map_keeps; [|apply cut_exit_keeps, HP].
  intros x. apply H. unfold same_numbers, core_prefix. cbn [core_with cf_address cf_build_id cf_build_id_offset cf_fingerprint cf_function_name].
  rewrite remove_prefixes_none. tauto.
Qed.
Lemma koops_normalize_keeps (P : koops_frame -> Prop) l r : (forall f, P f -> P (koops_cut_suffix f)) -> Forall P l ->
  sr_normalize_koops_frames l = Ok r -> Forall P r.
Proof.
  intros H HP. unfold sr_normalize_koops_frames. assert (K : Forall P (map koops_cut_suffix l)) by now apply map_keeps. revert r.
  induction K as [|f m Hf Hm IH]; intros r; cbn [koops_remove].
  - intros E. injection E as <-. constructor.
  - destruct (bsearch (kf_function_name f) _) as [b| |]; cbn [bind]; try discriminate.
    destruct (koops_remove m) as [q| |]; cbn [bind]; try discriminate. specialize (IH q eq_refl).
    destruct (kf_module_name f); [|destruct b]; intros E; injection E as <-; auto.
Qed.
Lemma normalize_keeps t u : Forall dup_fits (sr_thread_frames t) -> sr_thread_normalize t = Ok u -> Forall dup_fits (sr_thread_frames u).
Proof.
  intros H. destruct t as [t|t|t|t|t|t|t]; cbn [sr_thread_normalize]; intros E; try (injection E as <-; exact H).
  - injection E as <-. cbn [sr_thread_frames sr_normalize_core_thread ct_frames] in *. rewrite Forall_map in *.
    apply core_normalize_keeps; [intros f g; apply dup_fits_same|exact H].
  - destruct (sr_normalize_koops_frames (ks_frames t)) as [r| |] eqn:R; cbn [bind] in E; try discriminate E. injection E as <-.
    cbn [sr_thread_frames ks_frames] in *. rewrite Forall_map in *. refine (koops_normalize_keeps _ _ _ _ H R).
    intros f Hf. unfold koops_cut_suffix. destruct (kf_function_name f) as [n|] eqn:N; [|exact Hf].
    destruct (strchrnul n ".") as [b [|c q]]; [exact Hf|]. cbn. discriminate.
  - injection E as <-. cbn [sr_thread_frames] in *. destruct (gt_frames t) as [|f l] eqn:G.
    + unfold sr_normalize_gdb_thread. rewrite G. constructor.
    + apply Forall_inv in H. exact (False_ind _ H).
Qed.
