(** * Property C93: groups that stand apart are found by clustering. *)
From Coq Require Import QArith SetoidPermutation.
From Verif Require Import Base DistMatrixModel DistMatrixSpec ClusterModel ClusterSpec DistModel DistSpec DistProofs4 SeparateSpec SeparateProofs SeparateProofs2.
Open Scope Z_scope.

(** After any history of assignments that sets every pair: where the objects fall apart at the level of the cut, the
    clusters are exactly the groups of near objects with at least [min_size] members, whatever pairs were equally
    close and in whatever order they were merged. *)
Theorem C93_groups : forall n (d : Z -> Z -> Q) hist t min_size, 1 < n <= 46340 ->
  Forall (fun s => in_range (n - 1) n (fst (fst s)) (snd (fst s))) hist ->
  (forall i j, in_range (n - 1) n i j -> exists v, last_set hist i j = Some v /\ (v == d i j)%Q) ->
  falls_apart n d t ->
  exists d0 dm g cs, distances_new Q (n - 1) n = Ok d0 /\
    fold_res (fun d s => set_distance d (fst (fst s)) (snd (fst s)) (snd s)) hist d0 = Ok dm /\
    cluster_objects 0%Q qgt qle qavg dm = Ok g /\ dendrogram_cut qle g t min_size = Ok cs /\
    groups_of n (near d t) min_size cs.
Proof. exact history_apart. Qed.
(** The same for threads that are compared and clustered. *)
Theorem C93_threads : forall F (same : F -> F -> bool) (threads : list (nat * list F)) x dt t min_size,
  1 < Z.of_nat (length threads) <= 46340 -> (forall a b, In a threads -> In b threads -> fst a = fst b) ->
  falls_apart (Z.of_nat (length threads)) (apart same threads x dt) t ->
  exists dm g cs, threads_compare fst (value_of same) threads (Z.of_nat (length threads) - 1) (Z.of_nat (length threads)) dt = Ok dm /\
    cluster_objects 0%Q qgt qle qavg dm = Ok g /\ dendrogram_cut qle g t min_size = Ok cs /\
    groups_of (Z.of_nat (length threads)) (near (apart same threads x dt) t) min_size cs.
Proof. exact @threads_apart. Qed.
(** Cut at level 0, threads compared by an edit distance are grouped with their duplicates ... *)
Theorem C93_duplicates : forall F (same : F -> F -> bool) (threads : list (nat * list F)) x tr min_size,
  partial_equivalence (fun a b => same a b = true) -> 1 < Z.of_nat (length threads) <= 46340 ->
  (forall a b, In a threads -> In b threads -> fst a = fst b /\ fits (snd a) (snd b)) ->
  exists dm g cs, threads_compare fst (value_of same) threads (Z.of_nat (length threads) - 1) (Z.of_nat (length threads)) (edit_type tr) = Ok dm /\
    cluster_objects 0%Q qgt qle qavg dm = Ok g /\ dendrogram_cut qle g 0%Q min_size = Ok cs /\
    groups_of (Z.of_nat (length threads))
      (fun i j => i = j \/ Forall2 (fun a b => same a b = true) (snd (at_pos threads x i)) (snd (at_pos threads x j))) min_size cs.
Proof. exact @edit_twins. Qed.
(** ... and threads compared by Jaccard with those that have the same set of frames. *)
Theorem C93_same_sets : forall F (same : F -> F -> bool) (threads : list (nat * list F)) x min_size,
  equivalence (fun a b => same a b = true) -> 1 < Z.of_nat (length threads) <= 46340 ->
  (forall a b, In a threads -> In b threads -> fst a = fst b) ->
  exists dm g cs, threads_compare fst (value_of same) threads (Z.of_nat (length threads) - 1) (Z.of_nat (length threads)) JACCARD = Ok dm /\
    cluster_objects 0%Q qgt qle qavg dm = Ok g /\ dendrogram_cut qle g 0%Q min_size = Ok cs /\
    groups_of (Z.of_nat (length threads))
      (fun i j => same_frames (fun a b => same a b = true) (snd (at_pos threads x i)) (snd (at_pos threads x j))) min_size cs.
Proof. exact @jaccard_twins. Qed.
(** The groups are determined by what is near: there is one list of them, up to order. *)
Theorem C93_unique : forall n r min_size a b, groups_of n r min_size a -> groups_of n r min_size b -> same_groups a b.
Proof. exact groups_unique. Qed.

(** Without groups that stand apart the clusters depend on the order the threads are given in: of three threads, the
    middle one as far from the first as from the last, it is put together with whichever comes first. *)
Theorem C93_order_refuted : exists (a b c : nat * list nat) dm dm' g g', 
  threads_compare fst (value_of Nat.eqb) [a; b; c] 2 3 LEVENSHTEIN = Ok dm /\ cluster_objects 0%Q qgt qle qavg dm = Ok g /\
  threads_compare fst (value_of Nat.eqb) [c; b; a] 2 3 LEVENSHTEIN = Ok dm' /\ cluster_objects 0%Q qgt qle qavg dm' = Ok g' /\
  dendrogram_cut qle g (1 # 2) 2 = Ok [[0; 1]] /\ dendrogram_cut qle g' (1 # 2) 2 = Ok [[0; 1]].
Proof.
  exists (1%nat, [1; 2]%nat), (1%nat, [1; 3]%nat), (1%nat, [4; 3]%nat). do 4 eexists.
  do 4 (split; [vm_compute; reflexivity|]). split; vm_compute; reflexivity.
Qed.
(** Clusters that are cut at a level where the objects do not fall apart can hold objects that are further apart. *)
Theorem C93_far_members_refuted : exists hist d0 dm g, distances_new Q 2 3 = Ok d0 /\
  fold_res (fun d s => set_distance d (fst (fst s)) (snd (fst s)) (snd s)) hist d0 = Ok dm /\ cluster_objects 0%Q qgt qle qavg dm = Ok g /\
  dendrogram_cut qle g (1 # 2) 2 = Ok [[0; 1; 2]] /\ last_set hist 0 2 = Some (3 # 5)%Q.
Proof.
  exists [(0, 1, 1 # 5); (1, 2, 2 # 5); (0, 2, 3 # 5)]. do 3 eexists.
  do 3 (split; [vm_compute; reflexivity|]). split; vm_compute; reflexivity.
Qed.

(** Five threads, two pairs of duplicates with one thread between. *)
Definition five : list (nat * list nat) := [(1, [1; 2]); (1, [3]); (1, [1; 2]); (1, [4; 5; 6]); (1, [3])]%nat.
Example C93_example :
  (partial_equivalence (fun a b => Nat.eqb a b = true) /\ (forall a b, In a five -> In b five -> fst a = fst b /\ fits (snd a) (snd b))) /\
  (exists dm g, threads_compare fst (value_of Nat.eqb) five 4 5 LEVENSHTEIN = Ok dm /\ cluster_objects 0%Q qgt qle qavg dm = Ok g /\
     exists c1 c2, dendrogram_cut qle g 0%Q 2 = Ok [c1; c2] /\ Permutation c2 [0; 2] /\ Permutation c1 [1; 4]) /\
  falls_apart 4 (fun i j => if Z.eqb (i / 2) (j / 2) then 1 # 4 else 3 # 4)%Q (1 # 2) /\
  groups_of 4 (near (fun i j => if Z.eqb (i / 2) (j / 2) then 1 # 4 else 3 # 4)%Q (1 # 2)) 2 [[0; 1]; [3; 2]].
Proof.
  assert (E : forall i j, near (fun i j => if Z.eqb (i / 2) (j / 2) then 1 # 4 else 3 # 4)%Q (1 # 2) i j <-> i / 2 = j / 2).
  { intros i j. unfold near. destruct (Z.eqb_spec (i / 2) (j / 2)) as [Q|N].
    - split; [auto|]. intros _. right. discriminate.
    - split; [|contradiction]. intros [-> | H]; [reflexivity|]. exfalso. apply H. reflexivity. }
  split; [|split; [|split]].
  - split; [split; intros *; rewrite !Nat.eqb_eq; congruence|].
    assert (K : forall a, In a five -> fst a = 1%nat /\ (length (snd a) <= 3)%nat) by (intros a [<-|[<-|[<-|[<-|[<-|[]]]]]]; cbn; lia).
    intros a b Ha Hb. destruct (K a Ha), (K b Hb). split; [congruence|]. unfold fits, int_max. lia.
  - do 2 eexists. split; [vm_compute; reflexivity|]. split; [vm_compute; reflexivity|]. do 2 eexists. split; [vm_compute; reflexivity|].
    split; [apply Permutation_refl || apply perm_swap|apply Permutation_refl || apply perm_swap].
  - split; [intros i j _ _; rewrite !E; congruence|intros i j k _ _ _; rewrite !E; congruence].
  - assert (R : forall i, 0 <= i < 4 -> i = 0 \/ i = 1 \/ i = 2 \/ i = 3) by lia.
    split; [|split; [|split]].
    + cbn. repeat constructor; cbn; lia.
    + intros c [<-|[<-|[]]]; (split; [discriminate|]); (split; [cbn; lia|]); cbn; intros; lia.
    + intros c i j Hc Hi Hj. rewrite E. apply R in Hj. destruct Hc as [<-|[<-|[]]]; cbn in Hi |- *;
        (destruct Hi as [<-|[<-|[]]]); (destruct Hj as [->|[->|[->| ->]]]); vm_compute; (split; intros W; [try reflexivity; exfalso; intuition discriminate|try discriminate W; auto]).
    + intros i Hi. split.
      * intros _. apply R in Hi.
        destruct Hi as [->|[->|[->| ->]]]; [exists [0; 1]|exists [0; 1]|exists [2; 3]|exists [2; 3]]; (split; [repeat constructor; cbn; lia|]); (split; [cbn; lia|]);
          intros y [<-|[<-|[]]]; rewrite E; (split; [lia|reflexivity]).
      * intros _. apply R in Hi. destruct Hi as [->|[->|[->| ->]]]; [exists [0; 1]|exists [0; 1]|exists [3; 2]|exists [3; 2]]; cbn; auto.
Qed.
Print Assumptions C93_groups.
Print Assumptions C93_threads.
Print Assumptions C93_duplicates.
Print Assumptions C93_same_sets.
Print Assumptions C93_unique.
Print Assumptions C93_order_refuted.
Print Assumptions C93_far_members_refuted.
