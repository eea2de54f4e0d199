From Verif Require Import Base Types UtilsProofs CmpModel CmpSpec CmpProofs NormModel NormSpec NormProofs CrashModel CrashSpec CrashProofs.
From Coq Require Import QArith Lqa.
Close Scope Q_scope.
Open Scope nat_scope.

(** ** The order of the threads does not matter *)
Lemma perm_nth {A} (l l' : list A) i t : Permutation l l' -> nth_error l i = Some t -> exists j, nth_error l' j = Some t.
Proof. intros P N. apply In_nth_error. eapply Permutation_in; eauto. eapply nth_error_In; eauto. Qed.
Lemma only_split {A} (P : A -> Prop) l i : only P l i <->
  exists l1 t l2, l = l1 ++ t :: l2 /\ i = length l1 /\ P t /\ (forall u, In u (l1 ++ l2) -> ~ P u).
Proof.
  split.
  - intros (t & N & Pt & U). destruct (nth_error_split _ _ N) as (l1 & l2 & -> & L). exists l1, t, l2. repeat split; auto.
    intros u I Pu. apply in_app_or in I. destruct I as [I|I]; apply In_nth_error in I; destruct I as [j Nj].
    + assert (j < length l1) by (apply nth_error_Some; congruence).
      rewrite <- (nth_error_app1 l1 (t :: l2)) in Nj by assumption. pose proof (U _ _ Nj Pu). lia.
    + assert (nth_error (l1 ++ t :: l2) (length l1 + S j) = Some u).
      { rewrite nth_error_app2 by lia. replace (length l1 + S j - length l1) with (S j) by lia. exact Nj. }
      pose proof (U _ _ H Pu). lia.
  - intros (l1 & t & l2 & -> & -> & Pt & U). exists t. split; [|split; [exact Pt|]].
    + rewrite nth_error_app2, Nat.sub_diag by lia. reflexivity.
    + intros j u N Pu. destruct (Nat.lt_trichotomy j (length l1)) as [L|[E|L]]; auto; exfalso.
      * rewrite nth_error_app1 in N by assumption. apply (U u); auto. apply in_or_app. left. eapply nth_error_In; eauto.
      * rewrite nth_error_app2 in N by lia. destruct (j - length l1) as [|k] eqn:E; [lia|]. cbn in N.
        apply (U u); auto. apply in_or_app. right. eapply nth_error_In; eauto.
Qed.
Lemma only_perm {A} (P : A -> Prop) l l' i t : Permutation l l' -> only P l i -> nth_error l i = Some t ->
  exists j, only P l' j /\ nth_error l' j = Some t.
Proof.
  intros Pe O N. apply only_split in O. destruct O as (l1 & t' & l2 & -> & -> & Pt & U).
  rewrite nth_error_app2, Nat.sub_diag in N by lia. injection N as ->.
  assert (I : In t l') by (eapply Permutation_in; [exact Pe|apply in_or_app; right; left; auto]).
  destruct (in_split _ _ I) as (m1 & m2 & ->). exists (length m1). split.
  - apply only_split. exists m1, t, m2. repeat split; auto. intros u Iu. apply U.
    apply Permutation_app_inv in Pe. apply Permutation_sym in Pe. eapply Permutation_in; eauto.
  - rewrite nth_error_app2, Nat.sub_diag by lia. reflexivity.
Qed.
Lemma order_free s s' : Permutation (gs_threads s) (gs_threads s') -> gs_crash s' = gs_crash s ->
  gs_crash_tid s = unknown_tid -> gs_crash_tid s' = unknown_tid -> small_frames s ->
  match sr_gdb_stacktrace_find_crash_thread s, sr_gdb_stacktrace_find_crash_thread s' with
  | Some i, Some j => exists t u, nth_error (gs_threads s) i = Some t /\ nth_error (gs_threads s') j = Some u /\ by_frames t u = 0%Z
  | None, None => True
  | _, _ => False
  end.
Proof.
  intros Pe C T T' F.
  assert (F' : small_frames s').
  { unfold small_frames in *. rewrite Forall_forall in *. intros x I. apply F. apply (Permutation_in _ (Permutation_sym Pe) I). }
  assert (SH : forall t, shows_crash s' t <-> shows_crash s t) by (intros t; unfold shows_crash; rewrite C; tauto).
  assert (OK : forall t i, nth_error (gs_threads s) i = Some t -> Forall gdb_small (gt_frames t)).
  { intros t i N. unfold small_frames in F. rewrite Forall_forall in F. apply F. eapply nth_error_In; eauto. }
  destruct by_frames_orders as [eqv O]. change thread_cmp_dont_compare_number with by_frames in O.
  assert (SELF : forall t, Forall gdb_small (gt_frames t) -> by_frames t t = 0%Z).
  { intros t Ht. destruct O as (_ & S & _). specialize (S t t Ht Ht). lia. }
  assert (MISS : crash_tid_missing s') by (left; exact T').
  pose proof (gdb_find_ok s F) as A. pose proof (gdb_find_ok s' F') as B.
  remember (sr_gdb_stacktrace_find_crash_thread s) as a eqn:Ea. remember (sr_gdb_stacktrace_find_crash_thread s') as b eqn:Eb.
  assert (LEN : length (gs_threads s) = length (gs_threads s')) by now apply Permutation_length.
  (* it is enough to exhibit one admissible answer for s' *)
  assert (GO : forall i t j u, a = Some i -> nth_error (gs_threads s) i = Some t -> nth_error (gs_threads s') j = Some u ->
     by_frames t u = 0%Z -> gdb_crash_thread s' (Some j) ->
     match a, b with
     | Some i, Some j => exists t u, nth_error (gs_threads s) i = Some t /\ nth_error (gs_threads s') j = Some u /\ by_frames t u = 0%Z
     | None, None => True
     | _, _ => False
     end).
  { intros i t j u -> N N' E G. rewrite (gdb_crash_unique s' b (Some j) F' B G). eauto. }
  destruct A as [E|t E|i L N H|i L M H|i L M N1 H|i L M N1 N2 H|L M H].
  - rewrite E in Pe. apply Permutation_nil in Pe. rewrite (gdb_crash_unique s' b None F' B); [auto|now constructor].
  - rewrite E in Pe. apply Permutation_length_1_inv in Pe.
    eapply (GO 0 t 0 t); eauto; [rewrite E; auto|rewrite Pe; auto|apply SELF, (OK t 0); now rewrite E|eapply ct_single; eauto].
  - congruence.
  - pose proof H as (t & N & _). destruct (only_perm _ _ _ _ _ Pe H N) as (j & Hj & Nj).
    eapply (GO i t j t); eauto. apply ct_unique; [lia|auto|]. eapply only_ext; [|exact Hj]. intros x; now rewrite SH.
  - pose proof H as (t & N & _). destruct (only_perm _ _ _ _ _ Pe H N) as (j & Hj & Nj).
    eapply (GO i t j t); eauto. apply ct_aborting; [lia|auto| |].
    + intros k Hk. assert (Hk' : only (shows_crash s) (gs_threads s') k) by (eapply only_ext; [|exact Hk]; intros x; now rewrite SH).
      pose proof Hk' as (v & Nv & _). destruct (only_perm _ _ _ _ _ (Permutation_sym Pe) Hk' Nv) as (k' & K & _). exact (N1 _ K).
    + eapply only_ext; [|exact Hj]. intros x; now rewrite SH.
  - destruct B as [E'|t' E'|j L' N' H'|j L' M' H'|j L' M' N1' H'|j L' M' N1' N2' H'|L' M' H'].
    + rewrite E' in LEN. cbn in LEN. lia.
    + rewrite E' in LEN. cbn in LEN. lia.
    + congruence.
    + exfalso. assert (Hk' : only (shows_crash s) (gs_threads s') j) by (eapply only_ext; [|exact H']; intros x; now rewrite SH).
      pose proof Hk' as (v & Nv & _). destruct (only_perm _ _ _ _ _ (Permutation_sym Pe) Hk' Nv) as (k' & K & _). exact (N1 _ K).
    + exfalso. assert (Hk' : only (fun t => shows_crash s t /\ aborts t) (gs_threads s') j) by (eapply only_ext; [|exact H']; intros x; cbn; now rewrite SH).
      pose proof Hk' as (v & Nv & _). destruct (only_perm _ _ _ _ _ (Permutation_sym Pe) Hk' Nv) as (k' & K & _). exact (N2 _ K).
    + destruct H as (t & N & Pt & U). destruct H' as (u & N' & Pu & U').
      destruct (perm_nth _ _ _ _ Pe N) as (j0 & Nj0). destruct (perm_nth _ _ _ _ (Permutation_sym Pe) N') as (i0 & Ni0).
      apply SH in Pu. destruct (U _ _ Ni0 Pu) as [X _]. apply SH in Pt. destruct (U' _ _ Nj0 Pt) as [Y _].
      exists t, u. repeat split; auto. destruct O as (_ & S & _). specialize (S t u (OK _ _ N) (OK _ _ Ni0)). lia.
    + destruct H as (t & N & Pt & _). destruct (H' t); [|now apply SH]. eapply Permutation_in; eauto. eapply nth_error_In; eauto.
  - rewrite (gdb_crash_unique s' b None F' B); [auto|]. apply ct_nothing; [lia|auto|].
    intros t I St. apply SH in St. apply (H t); auto. eapply Permutation_in; [apply Permutation_sym|]; eauto.
Qed.

(** ** The crash thread survives normalization when its tid is known and unambiguous *)
Lemma find_index_tid tid l : forall i, find_index (fun t => (gt_tid t =? tid)%Z) i (map sr_normalize_gdb_thread l) =
  find_index (fun t => (gt_tid t =? tid)%Z) i l.
Proof. induction l as [|x l IH]; intros i; cbn; [reflexivity|]. now rewrite IH. Qed.
Lemma find_index_hit {A} (p : A -> bool) l : forall i k t, nth_error l k = Some t -> p t = true ->
  (forall j u, nth_error l j = Some u -> p u = true -> j = k) -> find_index p i l = Some (i + k).
Proof.
  induction l as [|x l IH]; intros i k t N P U; [destruct k; discriminate|]. cbn. destruct (p x) eqn:E.
  - rewrite <- (U 0 x eq_refl E). f_equal. lia.
  - destruct k as [|k]; [injection N as <-; congruence|]. rewrite (IH (S i) k t N P); [f_equal; lia|].
    intros j u Nj Pj. enough (S j = S k) by lia. eapply U; eauto.
Qed.
Lemma find_remembered s i t : sr_gdb_stacktrace_find_crash_thread s = Some i -> nth_error (gs_threads s) i = Some t ->
  gt_tid t <> unknown_tid -> (forall j u, nth_error (gs_threads s) j = Some u -> gt_tid u = gt_tid t -> j = i) ->
  gs_crash_tid s = unknown_tid \/ gs_crash_tid s = gt_tid t ->
  sr_gdb_stacktrace_find_crash_thread (sr_normalize_gdb_stacktrace s) = Some i /\
  gs_crash_tid (sr_normalize_gdb_stacktrace s) = gt_tid t.
Proof.
  intros H N U0 U C.
  assert (T : gs_crash_tid (sr_normalize_gdb_stacktrace s) = gt_tid t).
  { unfold sr_normalize_gdb_stacktrace. cbn [gs_crash_tid]. change uint32_max with unknown_tid.
    destruct (Z.eqb_spec (gs_crash_tid s) unknown_tid) as [E|E]; [now rewrite H, N|]. destruct C; congruence. }
  split; [|exact T]. unfold sr_gdb_stacktrace_find_crash_thread. rewrite T.
  change (gs_threads (sr_normalize_gdb_stacktrace s)) with (map sr_normalize_gdb_thread (gs_threads s)).
  rewrite find_index_tid.
  assert (FI : find_index (fun u => (gt_tid u =? gt_tid t)%Z) 0 (gs_threads s) = Some i).
  { rewrite (find_index_hit _ _ 0 i t N); [f_equal|apply Z.eqb_refl|]. intros j u Nj E. apply (U j u Nj). now apply Z.eqb_eq. }
  destruct (gs_threads s) as [|t1 [|t2 r]] eqn:E; cbn [map].
  - destruct i; discriminate.
  - destruct i as [|[|i]]; [reflexivity|discriminate|discriminate].
  - rewrite FI. change uint32_max with unknown_tid. destruct (Z.eqb_spec (gt_tid t) unknown_tid); [congruence|reflexivity].
Qed.
Lemma crash_frame_ok s f : sr_gdb_stacktrace_get_crash_frame s = Some f ->
  exists i t g, sr_gdb_stacktrace_find_crash_thread s = Some i /\ nth_error (gs_threads s) i = Some t /\
    In g (gt_frames t) /\ gdb_canonical g f /\ ~ gdb_boring f.
Proof.
  unfold sr_gdb_stacktrace_get_crash_frame. destruct (sr_gdb_stacktrace_find_crash_thread s) as [i|]; [|discriminate].
  cbn [gs_threads sr_normalize_gdb_stacktrace]. rewrite nth_error_map. destruct (nth_error (gs_threads s) i) as [t|] eqn:N; [|discriminate].
  cbn [option_map sr_normalize_gdb_thread gt_frames]. intros H.
  destruct (gdb_selection (gt_frames t)) as (m & S & F2). pose proof (gdb_nothing_boring (gt_frames t)) as B.
  destruct (sr_normalize_gdb_frames (gt_frames t)) as [|f0 r]; [discriminate|]. injection H as <-.
  inversion F2 as [|g ? m' ? G _ E1 E2]; subst. inversion_clear B.
  exists i, t, g. repeat split; auto; try apply G. eapply sub_in; [exact S|left; auto].
Qed.

(** ** core *)
Lemma core_find_ok s : core_crash s (sr_core_stacktrace_find_crash_thread s).
Proof.
  unfold sr_core_stacktrace_find_crash_thread. destruct (cs_crash_thread s) as [i|] eqn:C; [now constructor|].
  destruct (cs_threads s) as [|t1 [|t2 r]] eqn:T; [now constructor|now apply (cc_single s t1)|].
  rewrite <- T. assert (L : 2 <= length (cs_threads s)) by (rewrite T; cbn; lia). clear T t1 t2 r.
  destruct (find_index _ _ _) as [i|] eqn:E.
  - apply cc_first; auto. exact (find_index_first _ _ core_aborts_iff _ _ E).
  - apply cc_nothing; auto. exact (find_index_nowhere _ _ core_aborts_iff _ E).
Qed.
Lemma core_crash_unique s a b : core_crash s a -> core_crash s b -> a = b.
Proof.
  intros A B. destruct A, B; try congruence;
  try match goal with H : cs_threads s = _, K : 2 <= length (cs_threads s) |- _ => rewrite H in K; cbn in K; lia end.
  - f_equal. eapply first_unique; eauto.
  - exfalso. eapply first_not_nowhere; eauto.
  - exfalso. eapply first_not_nowhere; eauto.
Qed.
Lemma core_find_member s i : (forall k, cs_crash_thread s = Some k -> k < length (cs_threads s)) ->
  sr_core_stacktrace_find_crash_thread s = Some i -> i < length (cs_threads s).
Proof.
  intros W H. pose proof (core_find_ok s) as C. rewrite H in C. inversion C as [k E| |t N E|k N L (t & Nt & _)|]; subst; auto.
  - rewrite E. cbn. lia.
  - apply nth_error_Some. congruence.
Qed.

(** ** Quality *)
Lemma gdb_known_iff f : gdb_frame_ok f = true <-> gdb_known f.
Proof.
  unfold gdb_frame_ok, gdb_known. rewrite orb_true_iff, andb_true_iff. split.
  - intros [H|[H K]]; [auto|]. right. destruct (gf_function_name f) as [n|]; [|discriminate].
    destruct (gf_source_file f) as [[|c src]|]; try discriminate. exists n, (c :: src). repeat split; auto; [|discriminate].
    intros ->. discriminate.
  - intros [H|(n & src & -> & N & -> & E)]; [auto|]. right. split; [|destruct src; [congruence|reflexivity]].
    apply negb_true_iff, Z.eqb_neq. intros X. apply N. now apply strcmp_zero.
Qed.
Lemma java_known_iff f : java_frame_ok f = true <-> java_known f.
Proof. unfold java_frame_ok, java_known. rewrite orb_true_iff. destruct (vf_file_name f); intuition discriminate || congruence. Qed.
Lemma counted_unique {A} (P : A -> Prop) l n m : counted P l n -> counted P l m -> n = m.
Proof. intros C; revert m; induction C; intros m' D; inversion D; subst; try contradiction; auto. f_equal. auto. Qed.
Lemma counted_bounds {A} (P : A -> Prop) l n : counted P l n -> (0 <= n <= Z.of_nat (length l))%Z.
Proof. induction 1; cbn [length]; lia. Qed.
Lemma counted_all {A} (P : A -> Prop) l n : counted P l n -> (n = Z.of_nat (length l) <-> Forall P l).
Proof.
  induction 1 as [|x l n Px C IH|x l n Px C IH]; cbn [length].
  - split; auto.
  - split; [intros; constructor; auto; apply IH; lia|]. intros F. inversion F; subst. apply IH in H2. lia.
  - pose proof (counted_bounds _ _ _ C). split; [lia|]. intros F. inversion F; contradiction.
Qed.
Lemma counted_none {A} (P : A -> Prop) l n : counted P l n -> (n = 0 <-> Forall (fun x => ~ P x) l)%Z.
Proof.
  induction 1 as [|x l n Px C IH|x l n Px C IH].
  - split; auto.
  - pose proof (counted_bounds _ _ _ C). split; [lia|]. intros F. inversion F; contradiction.
  - rewrite IH. split; [constructor; auto|]. intros F. now inversion F.
Qed.
Lemma counts_ok {F} (ok : F -> bool) (P : F -> Prop) (R : forall f, ok f = true <-> P f) l :
  exists n, counted P l n /\ forall a b, quality_counts ok l (a, b) = (a + n, b + Z.of_nat (length l))%Z.
Proof.
  induction l as [|f l (n & C & H)].
  - exists 0%Z. split; [constructor|]. intros. cbn. f_equal; lia.
  - destruct (ok f) eqn:E.
    + exists (n + 1)%Z. split; [constructor; auto; now apply R|]. intros. cbn [quality_counts]. rewrite E. cbn [fst snd]. rewrite H. cbn [length]. f_equal; lia.
    + exists n. split; [constructor; auto; intros K; apply R in K; congruence|]. intros. cbn [quality_counts]. rewrite E. cbn [fst snd]. rewrite H. cbn [length]. f_equal; lia.
Qed.
Lemma counted_app {A} (P : A -> Prop) l n l' n' : counted P l n -> counted P l' n' -> counted P (l ++ l') (n + n').
Proof.
  induction 1; intros C; cbn [app]; [exact C| |constructor; auto].
  replace (n + 1 + n')%Z with (n + n' + 1)%Z by lia. constructor; auto.
Qed.
Lemma fold_counts l : forall a b, exists n, counted gdb_known (concat (map gt_frames l)) n /\
  fold_left (fun c t => sr_gdb_thread_quality_counts t c) l (a, b) = (a + n, b + Z.of_nat (length (concat (map gt_frames l))))%Z.
Proof.
  induction l as [|t l IH]; intros a b.
  - exists 0%Z. split; [constructor|]. cbn. f_equal; lia.
  - cbn [map concat fold_left]. destruct (counts_ok _ _ gdb_known_iff (gt_frames t)) as (n & C & H).
    unfold sr_gdb_thread_quality_counts at 2. rewrite H. destruct (IH (a + n)%Z (b + Z.of_nat (length (gt_frames t)))%Z) as (m & D & K).
    exists (n + m)%Z. split; [now apply counted_app|]. rewrite K, app_length. f_equal; lia.
Qed.
Lemma ratio_proportion {A} (P : A -> Prop) l n d : counted P l n ->
  proportion P l d (if (Z.of_nat (length l) =? 0)%Z then d else ratio n (Z.of_nat (length l))).
Proof.
  intros C. destruct l as [|x l].
  - left. split; [reflexivity|]. cbn. reflexivity.
  - right. exists n. split; [discriminate|]. split; [exact C|].
    destruct (Z.eqb_spec (Z.of_nat (length (x :: l))) 0) as [E|E]; [cbn [length] in E; lia|].
    unfold ratio. rewrite Qmult_comm. apply Qmult_div_r. intros X. apply E. apply inject_Z_injective. exact X.
Qed.
Lemma gdb_thread_quality_ok t : proportion gdb_known (gt_frames t) 1 (sr_gdb_thread_quality t).
Proof.
  unfold sr_gdb_thread_quality, sr_gdb_thread_quality_counts. destruct (counts_ok _ _ gdb_known_iff (gt_frames t)) as (n & C & H).
  rewrite H. cbn [Z.add]. now apply ratio_proportion.
Qed.
Lemma java_thread_quality_ok t : proportion java_known (vt_frames t) 1 (sr_java_thread_quality t).
Proof.
  unfold sr_java_thread_quality, sr_java_thread_quality_counts. destruct (counts_ok _ _ java_known_iff (vt_frames t)) as (n & C & H).
  rewrite H. cbn [Z.add]. now apply ratio_proportion.
Qed.
Lemma simple_quality_ok s : proportion gdb_known (concat (map gt_frames (gs_threads s))) 0 (sr_gdb_stacktrace_quality_simple s).
Proof.
  unfold sr_gdb_stacktrace_quality_simple. destruct (fold_counts (gs_threads s) 0 0) as (n & C & H).
  rewrite H. cbn [Z.add]. now apply ratio_proportion.
Qed.
Lemma nat_pos {A} (l : list A) : l <> [] -> (0 < inject_Z (Z.of_nat (length l)))%Q.
Proof. intros N. destruct l; [congruence|]. unfold Qlt. cbn [inject_Z Qnum Qden length]. lia. Qed.
Lemma proportion_unit {A} (P : A -> Prop) l d q : in_unit d -> proportion P l d q -> in_unit q.
Proof.
  intros [D0 D1] [(_ & E)|(n & N & C & E)]; [split; rewrite E; assumption|].
  pose proof (counted_bounds _ _ _ C) as [B0 B1]. pose proof (nat_pos l N) as L.
  assert (A0 : (0 <= inject_Z n)%Q) by (unfold Qle; cbn; lia).
  assert (A1 : (inject_Z n <= inject_Z (Z.of_nat (length l)))%Q) by (rewrite <- Zle_Qle; lia).
  split.
  - apply (Qmult_le_r _ _ _ L). rewrite E. lra.
  - apply (Qmult_le_r _ _ _ L). rewrite E. lra.
Qed.
Lemma proportion_one {A} (P : A -> Prop) l d q : l <> [] -> proportion P l d q -> ((q == 1)%Q <-> Forall P l).
Proof.
  intros N [(E & _)|(n & _ & C & E)]; [contradiction|]. rewrite <- (counted_all _ _ _ C). pose proof (nat_pos l N) as L. split.
  - intros Q1. rewrite Q1, Qmult_1_l in E. apply inject_Z_injective. now symmetry.
  - intros ->. apply (Qmult_inj_r _ _ (inject_Z (Z.of_nat (length l)))); [intros X; rewrite X in L; now apply Qlt_irrefl in L|]. rewrite E. lra.
Qed.
Lemma proportion_zero {A} (P : A -> Prop) l d q : l <> [] -> proportion P l d q -> ((q == 0)%Q <-> Forall (fun x => ~ P x) l).
Proof.
  intros N [(E & _)|(n & _ & C & E)]; [contradiction|]. rewrite <- (counted_none _ _ _ C). pose proof (nat_pos l N) as L. split.
  - intros Q1. rewrite Q1, Qmult_0_l in E. apply inject_Z_injective. now symmetry.
  - intros ->. apply (Qmult_inj_r _ _ (inject_Z (Z.of_nat (length l)))); [intros X; rewrite X in L; now apply Qlt_irrefl in L|]. rewrite E, Qmult_0_l. reflexivity.
Qed.
(* complex quality *)
Lemma complex_none s : sr_gdb_stacktrace_find_crash_thread s = None ->
  proportion gdb_known (concat (map (fun t => sr_normalize_gdb_frames (gt_frames t)) (gs_threads s))) 0 (sr_gdb_stacktrace_quality_complex s).
Proof.
  intros H. unfold sr_gdb_stacktrace_quality_complex. rewrite H.
  pose proof (simple_quality_ok (sr_normalize_gdb_stacktrace s)) as P. cbn [gs_threads sr_normalize_gdb_stacktrace] in P.
  rewrite map_map in P. exact P.
Qed.
Lemma complex_some s i t : sr_gdb_stacktrace_find_crash_thread s = Some i -> nth_error (gs_threads s) i = Some t ->
  exists q1 q2 q3,
    proportion gdb_known (concat (map (fun t => sr_normalize_gdb_frames (gt_frames t)) (gs_threads s))) 0 q1 /\
    proportion gdb_known (sr_normalize_gdb_frames (gt_frames t)) 1 q2 /\
    proportion gdb_known (firstn 5 (sr_normalize_gdb_frames (gt_frames t))) 1 q3 /\
    (sr_gdb_stacktrace_quality_complex s == (25 # 100) * q1 + (35 # 100) * q2 + (40 # 100) * q3)%Q.
Proof.
  intros H N. unfold sr_gdb_stacktrace_quality_complex. rewrite H.
  pose proof (simple_quality_ok (sr_normalize_gdb_stacktrace s)) as P.
  cbn [gs_threads sr_normalize_gdb_stacktrace] in *. rewrite map_map in P. rewrite nth_error_map, N. cbn [option_map].
  exists (sr_gdb_stacktrace_quality_simple (sr_normalize_gdb_stacktrace s)).
  exists (sr_gdb_thread_quality (sr_normalize_gdb_thread t)).
  exists (sr_gdb_thread_quality (remove_frames_below_n (sr_normalize_gdb_thread t) 5)).
  split; [exact P|]. split; [exact (gdb_thread_quality_ok (sr_normalize_gdb_thread t))|].
  split; [exact (gdb_thread_quality_ok (remove_frames_below_n (sr_normalize_gdb_thread t) 5))|].
  fold (sr_normalize_gdb_stacktrace s). lra.
Qed.
Lemma unit_0 : in_unit 0. Proof. split; lra. Qed.
Lemma unit_1 : in_unit 1. Proof. split; lra. Qed.
Lemma complex_unit s : in_unit (sr_gdb_stacktrace_quality_complex s).
Proof.
  destruct (sr_gdb_stacktrace_find_crash_thread s) as [i|] eqn:H.
  - destruct (gdb_find_member s i H) as (t & N & _). destruct (complex_some s i t H N) as (q1 & q2 & q3 & P1 & P2 & P3 & E).
    apply (proportion_unit _ _ _ _ unit_0) in P1. apply (proportion_unit _ _ _ _ unit_1) in P2, P3.
    unfold in_unit in *. rewrite E. lra.
  - apply (proportion_unit _ _ _ _ unit_0 (complex_none s H)).
Qed.
Lemma complex_one s i t : sr_gdb_stacktrace_find_crash_thread s = Some i -> nth_error (gs_threads s) i = Some t ->
  sr_normalize_gdb_frames (gt_frames t) <> [] ->
  ((sr_gdb_stacktrace_quality_complex s == 1)%Q <->
   forall u, In u (gs_threads s) -> Forall gdb_known (sr_normalize_gdb_frames (gt_frames u))).
Proof.
  intros H N NE. destruct (complex_some s i t H N) as (q1 & q2 & q3 & P1 & P2 & P3 & E). rewrite E.
  set (all := concat _) in P1.
  assert (ALL : Forall gdb_known all <-> forall u, In u (gs_threads s) -> Forall gdb_known (sr_normalize_gdb_frames (gt_frames u))).
  { unfold all. rewrite Forall_forall. split.
    - intros A u I. rewrite Forall_forall. intros x X. apply A. apply in_concat. eexists. split; [apply in_map_iff; exists u; split; [reflexivity|exact I]|exact X].
    - intros A x X. apply in_concat in X. destruct X as (l & L & X). apply in_map_iff in L. destruct L as (u & <- & I).
      specialize (A u I). rewrite Forall_forall in A. auto. }
  assert (NA : all <> []).
  { destruct (sr_normalize_gdb_frames (gt_frames t)) as [|x r] eqn:Ex; [congruence|]. intros C.
    assert (In x all) as I. { unfold all. apply in_concat. exists (x :: r). split; [|left; auto]. rewrite <- Ex.
      apply (in_map (fun t => sr_normalize_gdb_frames (gt_frames t))). eapply nth_error_In; eauto. }
    rewrite C in I. contradiction. }
  pose proof (proportion_one _ _ _ _ NA P1) as Q1. pose proof (proportion_one _ _ _ _ NE P2) as Q2.
  assert (NF : firstn 5 (sr_normalize_gdb_frames (gt_frames t)) <> []) by (destruct (sr_normalize_gdb_frames (gt_frames t)); [congruence|discriminate]).
  pose proof (proportion_one _ _ _ _ NF P3) as Q3.
  apply (proportion_unit _ _ _ _ unit_0) in P1. apply (proportion_unit _ _ _ _ unit_1) in P2, P3. unfold in_unit in *.
  rewrite <- ALL, <- Q1. split.
  - intros X. lra.
  - intros X. assert (F : Forall gdb_known (sr_normalize_gdb_frames (gt_frames t))).
    { apply ALL; [now apply Q1|]. eapply nth_error_In; eauto. }
    apply Q2 in F as F2. assert (F3 : Forall gdb_known (firstn 5 (sr_normalize_gdb_frames (gt_frames t)))).
    { rewrite <- (firstn_skipn 5 (sr_normalize_gdb_frames (gt_frames t))) in F. apply Forall_app in F. apply F. }
    apply Q3 in F3. rewrite X, F2, F3. lra.
Qed.
(** ** Limiting the depth *)
Lemma limit_depth_ok s depth s' : s' = sr_gdb_stacktrace_limit_frame_depth s depth ->
  gs_crash s' = gs_crash s /\ gs_libs s' = gs_libs s /\ gs_crash_tid s' = gs_crash_tid s /\
  length (gs_threads s') = length (gs_threads s) /\
  forall i t, nth_error (gs_threads s) i = Some t -> exists t', nth_error (gs_threads s') i = Some t' /\
    gt_number t' = gt_number t /\ gt_tid t' = gt_tid t /\ length (gt_frames t') <= depth /\
    (exists dropped, gt_frames t = gt_frames t' ++ dropped /\ (dropped = [] \/ length (gt_frames t') = depth)).
Proof.
  intros ->. unfold sr_gdb_stacktrace_limit_frame_depth. cbn [gs_crash gs_libs gs_crash_tid gs_threads].
  do 3 (split; [reflexivity|]). split; [apply map_length|]. intros i t H.
  exists (remove_frames_below_n t depth). split; [now apply (map_nth_error (fun t => remove_frames_below_n t depth))|]. cbn. do 2 (split; [reflexivity|]).
  split; [rewrite firstn_length; apply Nat.le_min_l|]. exists (skipn depth (gt_frames t)). split; [now rewrite firstn_skipn|].
  destruct (Nat.le_gt_cases (length (gt_frames t)) depth) as [K|K].
  - left. now apply skipn_all2.
  - right. rewrite firstn_length. lia.
Qed.
Lemma find_index_map {A} (p q : A -> bool) (f : A -> A) l : (forall x, p (f x) = q x) -> forall i, find_index p i (map f l) = find_index q i l.
Proof. intros H. induction l as [|x l IH]; intros i; cbn; [reflexivity|]. rewrite H, IH. reflexivity. Qed.
Lemma find_index_some {A} (p : A -> bool) l x : In x l -> p x = true -> forall i, exists k, find_index p i l = Some k.
Proof.
  induction l as [|y l IH]; intros Hx Hp i; [destruct Hx|]. cbn. destruct (p y) eqn:E; [eauto|].
  destruct Hx as [->|Hx]; [congruence|]. now apply IH.
Qed.
Lemma limit_depth_tid s depth t : In t (gs_threads s) -> gt_tid t = gs_crash_tid s -> gs_crash_tid s <> unknown_tid ->
  sr_gdb_stacktrace_find_crash_thread (sr_gdb_stacktrace_limit_frame_depth s depth) = sr_gdb_stacktrace_find_crash_thread s.
Proof.
  intros Ht He Hn. unfold sr_gdb_stacktrace_find_crash_thread at 1 2. unfold sr_gdb_stacktrace_limit_frame_depth at 1 2 3 4.
  cbn [gs_threads gs_crash_tid].
  assert (K : (gs_crash_tid s =? uint32_max)%Z = false) by (apply Z.eqb_neq; exact Hn).
  destruct (gs_threads s) as [|a [|b r]] eqn:E; [reflexivity|reflexivity|]. cbn [map]. rewrite K.
  destruct (find_index_some (fun t => (gt_tid t =? gs_crash_tid s)%Z) (a :: b :: r) t Ht) with (i := 0) as [k Hk].
  { now apply Z.eqb_eq. }
  change (remove_frames_below_n a depth :: remove_frames_below_n b depth :: map (fun t0 => remove_frames_below_n t0 depth) r)
    with (map (fun t0 => remove_frames_below_n t0 depth) (a :: b :: r)).
  rewrite (find_index_map _ (fun t => (gt_tid t =? gs_crash_tid s)%Z)) by reflexivity. rewrite Hk. reflexivity.
Qed.
