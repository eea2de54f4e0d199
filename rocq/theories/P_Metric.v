(** * C88: distances of three threads, and threads whose frames compare the same *)
From Coq Require Import QArith Lqa.
From Verif Require Import Base Types DistMatrixModel DistModel DistSpec DistProofs2 DistProofs4 CmpModel CmpProofs MetricProofs.
Open Scope nat_scope.

(** The Jaccard distance obeys the triangle inequality for threads of any types. *)
Theorem C88_jaccard F (same : F -> F -> bool) : equivalence (fun x y => same x y = true) -> forall t1 t2 t3 : nat * list F, exists d1 d2 d,
  sr_distance same JACCARD t1 t2 = Ok d1 /\ sr_distance same JACCARD t2 t3 = Ok d2 /\ sr_distance same JACCARD t1 t3 = Ok d /\ (d <= d1 + d2)%Q.
Proof. exact (jaccard_triangle_types same). Qed.
(** So it is for the frames of five types (C12). *)
Theorem C88_jaccard_types :
  (forall A B C, distance_jaccard (fun f g => python_frame_cmp_distance f g =? 0)%Z A C <= distance_jaccard (fun f g => python_frame_cmp_distance f g =? 0)%Z A B + distance_jaccard (fun f g => python_frame_cmp_distance f g =? 0)%Z B C)%Q /\
  (forall A B C, distance_jaccard (fun f g => koops_frame_cmp_distance f g =? 0)%Z A C <= distance_jaccard (fun f g => koops_frame_cmp_distance f g =? 0)%Z A B + distance_jaccard (fun f g => koops_frame_cmp_distance f g =? 0)%Z B C)%Q /\
  (forall A B C, distance_jaccard (fun f g => java_frame_cmp_distance f g =? 0)%Z A C <= distance_jaccard (fun f g => java_frame_cmp_distance f g =? 0)%Z A B + distance_jaccard (fun f g => java_frame_cmp_distance f g =? 0)%Z B C)%Q /\
  (forall A B C, distance_jaccard (fun f g => ruby_frame_cmp_distance f g =? 0)%Z A C <= distance_jaccard (fun f g => ruby_frame_cmp_distance f g =? 0)%Z A B + distance_jaccard (fun f g => ruby_frame_cmp_distance f g =? 0)%Z B C)%Q /\
  (forall A B C, distance_jaccard (fun f g => js_frame_cmp_distance f g =? 0)%Z A C <= distance_jaccard (fun f g => js_frame_cmp_distance f g =? 0)%Z A B + distance_jaccard (fun f g => js_frame_cmp_distance f g =? 0)%Z B C)%Q.
Proof. exact (conj (jaccard_triangle _ python_equiv) (conj (jaccard_triangle _ koops_equiv) (conj (jaccard_triangle _ java_equiv) (conj (jaccard_triangle _ ruby_equiv) (jaccard_triangle _ js_equiv))))). Qed.
(** The Levenshtein distance times the longer length obeys it ... *)
Theorem C88_levenshtein F (same : F -> F -> bool) ty A B C : (forall x y z, same x y = true -> same y z = true -> same x z = true) -> fits A B -> fits B C -> fits A C ->
  exists d1 d2 d, sr_distance same LEVENSHTEIN (ty, A) (ty, B) = Ok d1 /\ sr_distance same LEVENSHTEIN (ty, B) (ty, C) = Ok d2 /\ sr_distance same LEVENSHTEIN (ty, A) (ty, C) = Ok d /\
    (d * inject_Z (Z.of_nat (longer A C)) <= d1 * inject_Z (Z.of_nat (longer A B)) + d2 * inject_Z (Z.of_nat (longer B C)))%Q.
Proof. exact (lev_triangle same ty A B C). Qed.
(** ... and so does the distance of threads of one length. *)
Theorem C88_levenshtein_one_length F (same : F -> F -> bool) ty A B C d1 d2 d : (forall x y z, same x y = true -> same y z = true -> same x z = true) -> fits A B -> length A = length B -> length B = length C ->
  sr_distance same LEVENSHTEIN (ty, A) (ty, B) = Ok d1 -> sr_distance same LEVENSHTEIN (ty, B) (ty, C) = Ok d2 -> sr_distance same LEVENSHTEIN (ty, A) (ty, C) = Ok d -> (d <= d1 + d2)%Q.
Proof. exact (lev_equal_lengths same ty A B C d1 d2 d). Qed.
(** Every distance depends only on how frames compare: frames can be exchanged for frames that compare the same. *)
Theorem C88_same_frames F (same : F -> F -> bool) : partial_equivalence (fun x y => same x y = true) -> forall dt ty ty' A A' B B', fits A B ->
  Forall2 (fun x y => same x y = true) A A' -> Forall2 (fun x y => same x y = true) B B' -> sr_distance same dt (ty, A) (ty', B) = sr_distance same dt (ty, A') (ty', B').
Proof. exact (respect_all same). Qed.
(** Threads at edit distance 0 have the same distances from every other thread, of every kind. *)
Theorem C88_duplicates F (same : F -> F -> bool) : partial_equivalence (fun x y => same x y = true) -> forall tr ty A B C, fits A B -> fits A C ->
  forall d, sr_distance same (edit_type tr) (ty, A) (ty, B) = Ok d -> (d == 0)%Q -> forall dt ty', (forall x, same x x = true) -> sr_distance same dt (ty, A) (ty', C) = sr_distance same dt (ty, B) (ty', C).
Proof. exact (twins_edit same). Qed.

(** The Levenshtein distance itself does not obey it, since it is scaled by the longer length. *)
Theorem C88_levenshtein_refuted : exists A B C : list nat, exists d1 d2 d, sr_distance Nat.eqb LEVENSHTEIN (1, A) (1, B) = Ok d1 /\ sr_distance Nat.eqb LEVENSHTEIN (1, B) (1, C) = Ok d2 /\
  sr_distance Nat.eqb LEVENSHTEIN (1, A) (1, C) = Ok d /\ (d1 + d2 < d)%Q.
Proof. exists [1; 2], [1; 2; 1], [2; 1]. do 3 eexists. repeat (split; [vm_compute; reflexivity|]). vm_compute. reflexivity. Qed.
(** Damerau-Levenshtein does not, even before scaling: exchanged frames cannot be edited again. *)
Theorem C88_damerau_refuted : exists A B C : list nat, exists d1 d2 d, sr_distance Nat.eqb DAMERAU_LEVENSHTEIN (1, A) (1, B) = Ok d1 /\ sr_distance Nat.eqb DAMERAU_LEVENSHTEIN (1, B) (1, C) = Ok d2 /\
  sr_distance Nat.eqb DAMERAU_LEVENSHTEIN (1, A) (1, C) = Ok d /\ (d1 + d2 < d)%Q /\
  (d1 * inject_Z (Z.of_nat (longer A B)) + d2 * inject_Z (Z.of_nat (longer B C)) < d * inject_Z (Z.of_nat (longer A C)))%Q.
Proof. exists [3; 1], [1; 3], [1; 2; 3]. do 3 eexists. repeat (split; [vm_compute; reflexivity|]). vm_compute. reflexivity. Qed.
(** Nor does what is missing to 1 in the Jaro-Winkler similarity. *)
Theorem C88_jaro_winkler_refuted : exists A B C : list nat, ((1 - distance_jaro_winkler Nat.eqb A B) + (1 - distance_jaro_winkler Nat.eqb B C) < 1 - distance_jaro_winkler Nat.eqb A C)%Q.
Proof. exists [1; 2], [1; 3], [2; 3]. vm_compute. reflexivity. Qed.
(** For core frames, whose comparison is not transitive, no distance does. *)
Theorem C88_core_refuted : exists A B C : list frame, forall dt, dt = JACCARD \/ dt = LEVENSHTEIN \/ dt = DAMERAU_LEVENSHTEIN -> exists d1 d2 d,
  sr_distance frame_same dt (0, A) (0, B) = Ok d1 /\ sr_distance frame_same dt (0, B) (0, C) = Ok d2 /\ sr_distance frame_same dt (0, A) (0, C) = Ok d /\ (d1 == 0)%Q /\ (d2 == 0)%Q /\ (d == 1)%Q.
Proof.
  exists [FCore (mk_core_frame 0 None 0 (Some (L "f")) None None true)], [FCore (mk_core_frame 0 None 0 None None None true)], [FCore (mk_core_frame 0 None 0 (Some (L "g")) None None true)].
  intros dt [->|[->| ->]]; do 3 eexists; repeat (split; [vm_compute; reflexivity|]); vm_compute; reflexivity.
Qed.

(** ** Examples *)
Example three : exists d1 d2 d, sr_distance Nat.eqb JACCARD (1, [1; 2]) (1, [2; 3]) = Ok d1 /\ sr_distance Nat.eqb JACCARD (1, [2; 3]) (1, [3; 4]) = Ok d2 /\ sr_distance Nat.eqb JACCARD (1, [1; 2]) (1, [3; 4]) = Ok d /\
  (d1 == 2 # 3)%Q /\ (d2 == 2 # 3)%Q /\ (d == 1)%Q.
Proof. do 3 eexists. repeat (split; [vm_compute; reflexivity|]). vm_compute. reflexivity. Qed.
Example nat_equivalence : equivalence (fun x y => Nat.eqb x y = true).
Proof. split; [apply Nat.eqb_refl|]. split; intros *; rewrite ?Nat.eqb_eq; congruence. Qed.
(** Frames that are not equal but compare the same: parity. *)
Definition alike (x y : nat) : bool := Bool.eqb (Nat.odd x) (Nat.odd y).
Example alike_frames : Forall2 (fun x y => alike x y = true) [1; 2; 3] [3; 4; 5] /\ fits [1; 2; 3] [2; 2] /\ sr_distance alike LEVENSHTEIN (1, [1; 2; 3]) (1, [2; 2]) = sr_distance alike LEVENSHTEIN (1, [3; 4; 5]) (1, [2; 2]).
Proof. split; [repeat constructor|]. split; [unfold fits, int_max; cbn; lia|]. vm_compute. reflexivity. Qed.
Print Assumptions C88_jaccard.
Print Assumptions C88_jaccard_types.
Print Assumptions C88_levenshtein.
Print Assumptions C88_levenshtein_one_length.
Print Assumptions C88_same_frames.
Print Assumptions C88_duplicates.
Print Assumptions C88_levenshtein_refuted.
Print Assumptions C88_damerau_refuted.
Print Assumptions C88_jaro_winkler_refuted.
Print Assumptions C88_core_refuted.
