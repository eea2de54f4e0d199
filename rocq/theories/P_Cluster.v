(** * Properties C17-C19: clustering and cutting. *)
From Coq Require Import QArith SetoidPermutation Sorting.Sorted.
From Verif Require Import Base DistMatrixModel DistMatrixSpec ClusterModel ClusterSpec ClusterProofs4.
Open Scope Z_scope.

(** C17.  After any history of assignments that sets every pair of the matrix, clustering ends
    without a failed assertion, out-of-range access or use of an uninitialised level, whatever
    the values are and however they compare ([gt], [le], [avg] are arbitrary: NaN included); the
    dendrogram lists 0..n-1 exactly once each and has n-1 levels. *)
Theorem C17_permutation : forall D (zero : D) gt le avg m n (hist : list (Z * Z * D)), 0 < m -> 1 < n <= 46340 ->
  Forall (fun s => in_range (Z.min m (n - 1)) n (fst (fst s)) (snd (fst s))) hist ->
  (forall i j, in_range (Z.min m (n - 1)) n i j -> exists v, last_set hist i j = Some v) ->
  exists d0 d g, distances_new D m n = Ok d0 /\
    fold_res (fun d s => set_distance d (fst (fst s)) (snd (fst s)) (snd s)) hist d0 = Ok d /\
    cluster_objects zero gt le avg d = Ok g /\
    Permutation (dg_order g) (zrange 0 n) /\ Z.of_nat (length (dg_levels g)) = n - 1.
Proof. exact @history_cluster. Qed.
(** A matrix of 4 objects where only rows 0 and 1 are present, and a comparison that is never
    true, as with NaN. *)
Example C17_case : let hist := [(0, 1, 5); (2, 0, 1); (0, 3, 7); (1, 2, 4); (3, 1, 2)] in
  (Forall (fun s => in_range 2 4 (fst (fst s)) (snd (fst s))) hist /\
   forall i j, in_range 2 4 i j -> exists v, last_set hist i j = Some v) /\
  exists d0 d, distances_new Z 2 4 = Ok d0 /\
   fold_res (fun d s => set_distance d (fst (fst s)) (snd (fst s)) (snd s)) hist d0 = Ok d /\
   cluster_objects 0 Z.gtb Z.leb (fun a s b t => (a * s + b * t) / (s + t)) d = Ok (mk_dendrogram [0; 2; 1; 3] [1; 5; 2]) /\
   cluster_objects 0 (fun _ _ => false) (fun _ _ => false) (fun a s b t => (a * s + b * t) / (s + t)) d = Ok (mk_dendrogram [0; 1; 2; 3] [5; 2; 4]).
Proof.
  split; [split|].
  - repeat constructor; unfold in_range; cbn; lia.
  - intros i j (N & H1 & H2).
    assert (i = 0 \/ i = 1 \/ i = 2 \/ i = 3) as [->|[->|[->| ->]]] by lia;
    assert (j = 0 \/ j = 1 \/ j = 2 \/ j = 3) as [->|[->|[->| ->]]] by lia; try lia; cbn; eauto.
  - do 2 eexists. split; [vm_compute; reflexivity|]. split; [vm_compute; reflexivity|]. split; vm_compute; reflexivity.
Qed.
(** Reading a pair that was never set is use of uninitialised memory. *)
Theorem C17_unset_pair : exists d, distances_new Z 2 3 = Ok d /\
  cluster_objects 0 Z.gtb Z.leb (fun a s b t => (a * s + b * t) / (s + t)) d = UB.
Proof. eexists. split; [vm_compute; reflexivity|]. vm_compute. reflexivity. Qed.

(** C18.  The result, first to last saved, lists the maximal runs of at least [min_size] objects in
    the order of the dendrogram (sr_dendrogram_cut returns them last first). *)
Theorem C18_maximal_runs : forall D (le : D -> D -> bool) g t min_size,
  (length (dg_levels g) + 1 = length (dg_order g))%nat ->
  exists cs rs, dendrogram_cut le g t min_size = Ok cs /\
    StronglySorted (fun p q => (snd p < fst q)%nat) rs /\
    (forall a b, In (a, b) rs <-> maximal_run le (dg_levels g) (length (dg_order g)) t a b /\ min_size <= Z.of_nat (b - a + 1)) /\
    cs = rev (map (fun ab => slice (dg_order g) (fst ab) (snd ab)) rs).
Proof. intros D le g t min_size H. exact (cut_spec le g t H min_size). Qed.
(** No object is in two clusters; with [min_size <= 1] every object is in exactly one. *)
Theorem C18_partition : forall D (le : D -> D -> bool) g t,
  (length (dg_levels g) + 1 = length (dg_order g))%nat ->
  forall min_size cs, dendrogram_cut le g t min_size = Ok cs ->
  (min_size <= 1 -> concat (rev cs) = dg_order g) /\ exists rest, Permutation (concat cs ++ rest) (dg_order g).
Proof. exact @cut_partition. Qed.
(** Raising the level only merges clusters: each is a contiguous part of one at the higher level. *)
Theorem C18_raise : forall D (le : D -> D -> bool) g t t',
  (length (dg_levels g) + 1 = length (dg_order g))%nat ->
  forall cs cs' min_size, (forall v, le v t = true -> le v t' = true) ->
  dendrogram_cut le g t min_size = Ok cs -> dendrogram_cut le g t' min_size = Ok cs' ->
  forall c, In c cs -> exists c' p q, In c' cs' /\ c' = p ++ c ++ q.
Proof. exact @cut_raise. Qed.
Example C18_case : let g := mk_dendrogram [4; 2; 0; 3; 1] [3; 9; 1; 5] in
  dendrogram_cut Z.leb g 3 1 = Ok [[1]; [0; 3]; [4; 2]] /\ dendrogram_cut Z.leb g 3 2 = Ok [[0; 3]; [4; 2]] /\
  dendrogram_cut Z.leb g 5 1 = Ok [[0; 3; 1]; [4; 2]] /\ dendrogram_cut Z.leb g 0 1 = Ok [[1]; [3]; [0]; [2]; [4]] /\
  dendrogram_cut Z.leb g 9 6 = Ok [].
Proof. repeat split. Qed.

(** C19.  With exact arithmetic, for every assignment of distances to all pairs of n objects, every
    level and minimal size: the clusters are exactly those of repeated merging of the two closest
    groups under average linkage while they are at most [t] apart, that have at least [min_size]
    members.  (No assumption on the sign of the distances is needed.) *)
Theorem C19_average_linkage : forall n (d : Z -> Z -> Q) hist t min_size, 1 < n <= 46340 ->
  Forall (fun s => in_range (n - 1) n (fst (fst s)) (snd (fst s))) hist ->
  (forall i j, in_range (n - 1) n i j -> exists v, last_set hist i j = Some v /\ (v == d i j)%Q) ->
  exists d0 dm g cs gs, distances_new Q (n - 1) n = Ok d0 /\
    fold_res (fun d s => set_distance d (fst (fst s)) (snd (fst s)) (snd s)) hist d0 = Ok dm /\
    cluster_objects 0%Q qgt qle qavg dm = Ok g /\ dendrogram_cut qle g t min_size = Ok cs /\
    merging d t (map (fun i => [i]) (zrange 0 n)) gs /\
    same_groups cs (filter (fun c => min_size <=? Z.of_nat (length c)) gs).
Proof. exact history_linkage. Qed.
Example C19_case : let hist := [(0, 1, 1#2); (0, 2, 1#1); (0, 3, 3#4); (1, 2, 1#3); (1, 3, 1#1); (2, 3, 1#5)] in
  exists d0 dm g, distances_new Q 3 4 = Ok d0 /\
    fold_res (fun d s => set_distance d (fst (fst s)) (snd (fst s)) (snd s)) hist d0 = Ok dm /\
    cluster_objects 0%Q qgt qle qavg dm = Ok g /\
    dg_order g = [0; 1; 2; 3] /\
    dendrogram_cut qle g (1#2)%Q 1 = Ok [[2; 3]; [0; 1]] /\ dendrogram_cut qle g (1#3)%Q 2 = Ok [[2; 3]] /\ dendrogram_cut qle g (4#5)%Q 1 = Ok [[0; 1; 2; 3]].
Proof.
  do 3 eexists. split; [vm_compute; reflexivity|]. split; [vm_compute; reflexivity|]. split; [vm_compute; reflexivity|].
  repeat split; vm_compute; reflexivity.
Qed.
Print Assumptions C17_permutation.
Print Assumptions C17_unset_pair.
Print Assumptions C18_maximal_runs.
Print Assumptions C18_partition.
Print Assumptions C18_raise.
Print Assumptions C19_average_linkage.
