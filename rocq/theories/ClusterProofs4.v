(** * Lemmas about cutting: raising the level; clustering after a history of assignments. *)
From Coq Require Import QArith SetoidPermutation Sorting.Sorted.
From Verif Require Import Base DistMatrixModel DistMatrixSpec DistMatrixProofs DistPartProofs ClusterModel ClusterSpec ClusterProofs ClusterProofs2 ClusterProofs3.
Open Scope Z_scope.

Lemma pruns_at {D} (le : D -> D -> bool) t ls : forall a i k, (a <= i)%nat -> (a <= k <= i + length ls)%nat ->
  exists x y, In (x, y) (pruns le t a i ls) /\ (x <= k <= y)%nat.
Proof.
  induction ls as [|v ls IH]; intros a i k Ha Hk; cbn [pruns length] in *.
  - exists a, i. split; [now left|lia].
  - destruct (le v t); [apply IH; lia|]. destruct (le_lt_dec k i) as [H|H].
    + exists a, i. split; [now left|lia].
    + destruct (IH (S i) (S i) k) as (x & y & Hx & Hy); [lia|lia|]. exists x, y. split; [now right|exact Hy].
Qed.
Lemma slice_sub {A} (l : list A) a b x y : (a <= x <= y)%nat -> (y <= b < length l)%nat -> exists p q, slice l a b = p ++ slice l x y ++ q.
Proof.
  intros H1 H2. unfold slice. exists (firstn (x - a) (skipn a l)), (skipn (y - x + 1) (firstn (b - x + 1) (skipn x l))).
  assert (SS : forall p q (l : list A), skipn p (skipn q l) = skipn (q + p) l).
  { clear. intros p q; induction q; intros [|u l]; cbn; auto. now destruct p. }
  assert (E : firstn (y - x + 1) (skipn x l) = firstn (y - x + 1) (firstn (b - x + 1) (skipn x l))).
  { rewrite firstn_firstn. f_equal. lia. }
  rewrite E, firstn_skipn. replace (skipn x l) with (skipn (x - a) (skipn a l)) by (rewrite SS; f_equal; lia).
  rewrite <- (firstn_skipn (x - a) (firstn (b - a + 1) (skipn a l))). f_equal.
  - rewrite firstn_firstn. f_equal. lia.
  - rewrite skipn_firstn_comm. f_equal. lia.
Qed.
Lemma pruns_in0 {D} (le : D -> D -> bool) t levels n : (length levels + 1 = n)%nat ->
  forall x y, In (x, y) (pruns le t 0 0 levels) <-> maximal_run le levels n t x y.
Proof.
  intros Hn x y. pose proof (pruns_in le t levels n Hn levels 0 0 eq_refl ltac:(lia) ltac:(lia)) as H.
  rewrite H; [split; [tauto|intros; split; [lia|assumption]]|intros; lia|intros; lia].
Qed.
Section Raise.
Context {D : Type} (le : D -> D -> bool).
Variables (g : @dendrogram D) (t t' : D).
Hypothesis Hg : (length (dg_levels g) + 1 = length (dg_order g))%nat.
Lemma cut_spec min_size : exists cs rs, dendrogram_cut le g t min_size = Ok cs /\
  StronglySorted (fun p q => (snd p < fst q)%nat) rs /\
  (forall a b, In (a, b) rs <-> maximal_run le (dg_levels g) (length (dg_order g)) t a b /\ min_size <= Z.of_nat (b - a + 1)) /\
  cs = rev (map (fun ab => slice (dg_order g) (fst ab) (snd ab)) rs).
Proof.
  eexists _, (filter (keep min_size) (pruns le t 0 0 (dg_levels g))). split; [apply cut_eq; exact Hg|].
  split; [|split; [|reflexivity]].
  - pose proof (pruns_sorted le t (dg_levels g) 0 0 ltac:(lia)) as S. revert S. generalize (pruns le t 0 0 (dg_levels g)). induction l as [|p l IH]; intros S; cbn; [constructor|].
    apply StronglySorted_inv in S as [S1 S2]. destruct (keep min_size p); [|auto]. constructor; [auto|]. rewrite Forall_forall in *. intros q Hq. apply filter_In in Hq. now apply S2.
  - intros a b. rewrite filter_In. rewrite (pruns_in0 le t (dg_levels g) (length (dg_order g)) Hg).
    unfold keep. cbn [fst snd]. split.
    + intros [M K]. split; [exact M|]. destruct M as [M _]. lia.
    + intros [M K]. split; [exact M|]. destruct M as [M _]. lia.
Qed.
Lemma cut_partition min_size cs : dendrogram_cut le g t min_size = Ok cs ->
  (min_size <= 1 -> concat (rev cs) = dg_order g) /\ exists rest, Permutation (concat cs ++ rest) (dg_order g).
Proof.
  intros E. rewrite cut_eq in E by exact Hg. injection E as <-.
  pose proof (pruns_cover le t (dg_order g) (dg_levels g) 0 0 ltac:(lia) ltac:(lia)) as C. cbn [skipn] in C. split.
  - intros H. rewrite rev_involutive, keep_all by lia. exact C.
  - exists (concat (map (fun ab => slice (dg_order g) (fst ab) (snd ab)) (filter (fun ab => negb (keep min_size ab)) (pruns le t 0 0 (dg_levels g))))).
    apply Permutation_trans with (concat (map (fun ab => slice (dg_order g) (fst ab) (snd ab)) (pruns le t 0 0 (dg_levels g)))); [|rewrite C; reflexivity].
    assert (PC : forall a b : list (list Z), Permutation a b -> Permutation (concat a) (concat b)).
    { intros a b. induction 1; cbn; [constructor|now apply Permutation_app_head|rewrite !app_assoc; apply Permutation_app_tail, Permutation_app_comm|etransitivity; eassumption]. }
    rewrite (PC (rev _) (map (fun ab => slice (dg_order g) (fst ab) (snd ab)) (filter (keep min_size) (pruns le t 0 0 (dg_levels g)))) (Permutation_sym (Permutation_rev _))).
    rewrite <- concat_app, <- map_app. apply PC, Permutation_map. symmetry. apply filter_split.
Qed.
Lemma cut_raise cs cs' min_size : (forall v, le v t = true -> le v t' = true) ->
  dendrogram_cut le g t min_size = Ok cs -> dendrogram_cut le g t' min_size = Ok cs' ->
  forall c, In c cs -> exists c' p q, In c' cs' /\ c' = p ++ c ++ q.
Proof.
  intros Mono E E' c Hc. rewrite cut_eq in E, E' by exact Hg. injection E as <-. injection E' as <-.
  apply in_rev in Hc. apply in_map_iff in Hc as ([x y] & <- & Hx). cbn [fst snd]. apply filter_In in Hx as [Hx K].
  assert (Hx' := Hx).
  apply (pruns_in0 le t (dg_levels g) (length (dg_order g)) Hg) in Hx as (M0 & M1 & _).
  destruct (pruns_at le t' (dg_levels g) 0 0 x) as (a & b & Hab & Hr); [lia|lia|].
  assert (Hab' := Hab).
  apply (pruns_in0 le t' (dg_levels g) (length (dg_order g)) Hg) in Hab as (N0 & _ & _ & N3).
  assert (y <= b)%nat.
  { destruct (le_lt_dec y b) as [H|H]; [exact H|]. exfalso. destruct (nth_error (dg_levels g) b) as [v|] eqn:Ev.
    - specialize (M1 b v ltac:(lia) Ev). apply Mono in M1. rewrite (N3 v ltac:(lia) eq_refl) in M1. discriminate.
    - apply nth_error_None in Ev. lia. }
  destruct (slice_sub (dg_order g) a b x y ltac:(lia) ltac:(lia)) as (p & q & Epq).
  exists (slice (dg_order g) a b), p, q. split; [|exact Epq]. apply -> in_rev. apply in_map_iff. exists (a, b). split; [reflexivity|].
  apply filter_In. split; [exact Hab'|]. unfold keep in *. cbn [fst snd] in *. lia.
Qed.
End Raise.

(** A matrix after a history of assignments that covers it. *)
Lemma history_full {D} (zero : D) m n hist : 0 < m -> 1 < n <= max_n ->
  Forall (fun s => in_range (Z.min m (n - 1)) n (fst (fst s)) (snd (fst s))) hist ->
  (forall i j, in_range (Z.min m (n - 1)) n i j -> exists v, last_set hist i j = Some v) ->
  exists d0 d, distances_new D m n = Ok d0 /\
    fold_res (fun d s => set_distance d (fst (fst s)) (snd (fst s)) (snd s)) hist d0 = Ok d /\
    full zero d /\ mx_m d = Z.min m (n - 1) /\ mx_n d = n /\
    forall i j v, i <> j -> last_set hist i j = Some v -> get_distance zero d i j = Ok v.
Proof.
  intros Hm Hn H1 H2. destruct (history_ok m n hist Hm Hn H1) as (d0 & d & E0 & E & W & Em & En & G). exists d0, d.
  split; [exact E0|]. split; [exact E|]. split; [split; [exact W|]|split; [exact Em|split; [exact En|]]].
  - rewrite Em, En. intros i j R. destruct (H2 i j R) as (v & Ev). exists v. rewrite G, Ev by apply R. reflexivity.
  - intros i j v N Ev. rewrite G, Ev by exact N. reflexivity.
Qed.
Lemma history_cluster {D} (zero : D) gt le avg m n hist : 0 < m -> 1 < n <= max_n ->
  Forall (fun s => in_range (Z.min m (n - 1)) n (fst (fst s)) (snd (fst s))) hist ->
  (forall i j, in_range (Z.min m (n - 1)) n i j -> exists v, last_set hist i j = Some v) ->
  exists d0 d g, distances_new D m n = Ok d0 /\
    fold_res (fun d s => set_distance d (fst (fst s)) (snd (fst s)) (snd s)) hist d0 = Ok d /\
    cluster_objects zero gt le avg d = Ok g /\
    Permutation (dg_order g) (zrange 0 n) /\ Z.of_nat (length (dg_levels g)) = n - 1.
Proof.
  intros Hm Hn H1 H2. destruct (history_full zero m n hist Hm Hn H1 H2) as (d0 & d & E0 & E & F & Em & En & G).
  destruct (cluster_ok zero gt le avg d F) as (g & E' & P & L). exists d0, d, g. rewrite En in *. auto.
Qed.
Lemma merging_ext d d' t gs gs' : (forall x y, In x (concat gs) -> In y (concat gs) -> x <> y -> (d x y == d' x y)%Q) -> NoDup (concat gs) ->
  merging d t gs gs' -> merging d' t gs gs'.
Proof.
  assert (LE : forall gs g h rest, (forall x y, In x (concat gs) -> In y (concat gs) -> x <> y -> (d x y == d' x y)%Q) -> NoDup (concat gs) ->
    Permutation gs (g :: h :: rest) -> (link d g h == link d' g h)%Q).
  { intros l g h rest H ND P. unfold link. assert (E : (sumQ (flat_map (fun x => map (d x) h) g) == sumQ (flat_map (fun x => map (d' x) h) g))%Q); [|rewrite E; reflexivity].
    assert (PC : forall a b : list (list Z), Permutation a b -> Permutation (concat a) (concat b)).
    { intros a b. induction 1; cbn; [constructor|now apply Permutation_app_head|rewrite !app_assoc; apply Permutation_app_tail, Permutation_app_comm|etransitivity; eassumption]. }
    apply PC in P. cbn [concat] in P. pose proof (Permutation_NoDup P ND) as ND'. rewrite app_assoc in ND'. apply NoDup_app_remove_r in ND'.
    assert (H' : forall x y, In x g -> In y h -> (d x y == d' x y)%Q).
    { intros x y Hx Hy. apply H.
      - eapply Permutation_in; [symmetry; exact P|]. apply in_or_app. now left.
      - eapply Permutation_in; [symmetry; exact P|]. apply in_or_app. right. apply in_or_app. now left.
      - intros ->. clear - ND' Hx Hy. induction g as [|u g IH]; [destruct Hx|]. cbn in ND'. apply NoDup_cons_iff in ND' as [N1 N2]. destruct Hx as [->|Hx]; [apply N1, in_or_app; now right|auto]. }
    clear - H'. induction g as [|x g IH]; [reflexivity|]. cbn [flat_map]. rewrite !sumQ_app, IH by (intros; apply H'; auto; now right).
    assert (E : (sumQ (map (d x) h) == sumQ (map (d' x) h))%Q); [|rewrite E; reflexivity].
    assert (H : forall y, In y h -> (d x y == d' x y)%Q) by (intros; apply H'; auto; now left). clear - H.
    induction h as [|y h IH]; [reflexivity|]. cbn [map]. rewrite !sumQ_cons. rewrite IH by (intros; apply H; now right). specialize (H y (or_introl eq_refl)). setoid_rewrite H. reflexivity. }
  intros H ND M. revert H ND. induction M as [gs St|gs g h gh rest gs' P Lt Mn Pg M IH]; intros H ND.
  - apply m_stop. intros g h rest P. rewrite <- (LE gs g h rest H ND P). eapply St; exact P.
  - assert (PC : forall a b : list (list Z), Permutation a b -> Permutation (concat a) (concat b)).
    { intros a b. induction 1; cbn; [constructor|now apply Permutation_app_head|rewrite !app_assoc; apply Permutation_app_tail, Permutation_app_comm|etransitivity; eassumption]. }
    assert (Pc : Permutation (concat gs) (concat (gh :: rest))).
    { rewrite (PC _ _ P). cbn [concat]. rewrite app_assoc. apply Permutation_app_tail. now symmetry. }
    eapply m_merge; [exact P| | |exact Pg|].
    + rewrite <- (LE gs g h rest H ND P). exact Lt.
    + intros g' h' rest' P'. rewrite <- (LE gs g h rest H ND P), <- (LE gs g' h' rest' H ND P'). eapply Mn; exact P'.
    + apply IH; [|eapply Permutation_NoDup; eassumption]. intros x y Hx Hy. apply H; (eapply Permutation_in; [symmetry; exact Pc|assumption]).
Qed.
Lemma history_linkage n (d : Z -> Z -> Q) hist t min_size : 1 < n <= max_n ->
  Forall (fun s => in_range (n - 1) n (fst (fst s)) (snd (fst s))) hist ->
  (forall i j, in_range (n - 1) n i j -> exists v, last_set hist i j = Some v /\ (v == d i j)%Q) ->
  exists d0 dm g cs gs, distances_new Q (n - 1) n = Ok d0 /\
    fold_res (fun d s => set_distance d (fst (fst s)) (snd (fst s)) (snd s)) hist d0 = Ok dm /\
    cluster_objects 0%Q qgt qle qavg dm = Ok g /\ dendrogram_cut qle g t min_size = Ok cs /\
    merging d t (map (fun i => [i]) (zrange 0 n)) gs /\
    same_groups cs (filter (fun c => min_size <=? Z.of_nat (length c)) gs).
Proof.
  intros Hn H1 H2.
  assert (Em' : Z.min (n - 1) (n - 1) = n - 1) by lia.
  destruct (history_full 0%Q (n - 1) n hist ltac:(lia) Hn) as (d0 & dm & E0 & E & F & Em & En & G); rewrite ?Em'; try assumption.
  { intros i j R. destruct (H2 i j R) as (v & Ev & _). eauto. }
  destruct (linkage_ok dm t F) as (g & gs & EC & MG & SG & Lg); [lia|].
  exists d0, dm, g. eexists. exists gs. split; [exact E0|]. split; [exact E|]. split; [exact EC|].
  split; [apply cut_eq; lia|]. rewrite En in MG. split.
  - eapply merging_ext; [| |exact MG].
    + rewrite concat_single. intros x y Hx Hy N. apply zrange_in in Hx, Hy.
      destruct (H2 x y) as (v & Ev & Lv); [unfold in_range; lia|]. unfold dist. rewrite (G x y v N Ev). exact Lv.
    + rewrite concat_single. apply zrange_NoDup.
  - apply sg_sym. eapply sg_trans; [apply sg_filter; [|exact SG]|].
    + intros x y P. rewrite (Permutation_length P). reflexivity.
    + rewrite (runs_pruns qle t) by exact Lg. eapply sg_trans; [|apply sg_perm, Permutation_rev].
      replace (filter _ (map _ _)) with (map (fun ab => slice (dg_order g) (fst ab) (snd ab)) (filter (keep min_size) (pruns qle t 0 0 (dg_levels g)))); [apply sg_refl|].
      assert (R : forall x y, In (x, y) (pruns qle t 0 0 (dg_levels g)) -> (x <= y < length (dg_order g))%nat).
      { intros x y Hx. apply pruns_range in Hx; lia. }
      revert R. generalize (pruns qle t 0 0 (dg_levels g)). induction l as [|[x y] l IH]; intros R; [reflexivity|]. cbn [map filter].
      assert (K : keep min_size (x, y) = (min_size <=? Z.of_nat (length (slice (dg_order g) x y)))).
      { unfold keep, slice. cbn [fst snd]. specialize (R x y (or_introl eq_refl)). rewrite firstn_length, skipn_length. f_equal. lia. }
      cbn [fst snd]. rewrite <- K. destruct (keep min_size (x, y)); cbn [map]; [f_equal|]; apply IH; intros; apply R; now right.
Qed.
