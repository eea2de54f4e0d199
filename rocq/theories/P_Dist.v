(** * Properties C09-C13: thread distances. *)
From Coq Require Import QArith Reals.
From Verif Require Import Base Types DistMatrixModel DistModel DistSpec DistProofs2 DistProofs3 DistFloat CmpModel DistProofs4.
Open Scope Z_scope.

(** ** C09: for any two threads of the same type and any frame comparison the value is the minimum
    number of insertions, deletions and changes over the longer length; no undefined behaviour
    (uninitialised or out-of-range cell) occurs. *)
Theorem C09_minimal : forall F (same : F -> F -> bool) ty A B, fits A B -> A <> [] \/ B <> [] ->
  exists k, minimal_edits (fun x y => same x y = true) False A B k /\
    sr_distance same LEVENSHTEIN (ty, A) (ty, B) = Ok (quotient k (longer A B)).
Proof. exact @plain_value. Qed.
Theorem C09_empty : forall F (same : F -> F -> bool) ty, sr_distance same LEVENSHTEIN (ty, []) (ty, []) = Ok 0%Q.
Proof. exact (fun F same => @edit_empty F same false). Qed.
Example C09_case : sr_distance Nat.eqb LEVENSHTEIN (1%nat, [1; 2; 3; 4]%nat) (1%nat, [2; 3; 5]%nat) = Ok (quotient 2 4) /\
  fits [1; 2; 3; 4]%nat [2; 3; 5]%nat.
Proof. split; [reflexivity | unfold fits, int_max; cbn; lia]. Qed.

(** ** C10: with transpositions.  Minimality needs a symmetric and transitive comparison. *)
Theorem C10_minimal : forall F (same : F -> F -> bool) ty A B,
  partial_equivalence (fun x y => same x y = true) -> fits A B -> A <> [] \/ B <> [] ->
  exists k, minimal_edits (fun x y => same x y = true) True A B k /\
    sr_distance same DAMERAU_LEVENSHTEIN (ty, A) (ty, B) = Ok (quotient k (longer A B)).
Proof. exact @damerau_value. Qed.
Theorem C10_not_larger : forall F (same : F -> F -> bool) ty A B, fits A B -> exists d d',
  sr_distance same DAMERAU_LEVENSHTEIN (ty, A) (ty, B) = Ok d /\
  sr_distance same LEVENSHTEIN (ty, A) (ty, B) = Ok d' /\ (d <= d')%Q.
Proof. exact @edit_le. Qed.
(** The library's gdb comparison is not transitive; two threads that differ get distance 0. *)
Definition gdb_fun (f : string) (lib : option string) : frame :=
  FGdb (mk_gdb_frame (Some (L f)) None 0 None 0 false 0 (option_map L lib)).
Theorem C10_gdb_refuted : exists A B : list frame,
  fits A B /\ A <> [] /\
  sr_distance frame_same DAMERAU_LEVENSHTEIN (5%nat, A) (5%nat, B) = Ok (quotient 0 2) /\
  ~ edits (fun x y => frame_same x y = true) True A B 0.
Proof.
  exists [gdb_fun "f" (Some "A"%string); gdb_fun "f" None], [gdb_fun "f" (Some "B"%string); gdb_fun "f" None].
  split; [unfold fits, int_max; cbn; lia|]. split; [discriminate|]. split; [reflexivity|].
  intros E. inversion E; subst; discriminate.
Qed.
Example C10_case : sr_distance Nat.eqb DAMERAU_LEVENSHTEIN (1%nat, [1; 2; 3]%nat) (1%nat, [2; 1; 3]%nat) = Ok (quotient 1 3) /\
  sr_distance Nat.eqb LEVENSHTEIN (1%nat, [1; 2; 3]%nat) (1%nat, [2; 1; 3]%nat) = Ok (quotient 2 3) /\
  partial_equivalence (fun x y => Nat.eqb x y = true).
Proof.
  split; [reflexivity|]. split; [reflexivity|]. split; intros *; rewrite !Nat.eqb_eq; congruence.
Qed.

(** ** C11: laws of the scaled edit distances ([edit_type true] is Damerau-Levenshtein). *)
Theorem C11_range : forall F (same : F -> F -> bool) tr ty A B, fits A B ->
  exists d, sr_distance same (edit_type tr) (ty, A) (ty, B) = Ok d /\ (0 <= d <= 1)%Q.
Proof. exact @edit_range. Qed.
Theorem C11_zero : forall F (same : F -> F -> bool) tr ty A B d, fits A B ->
  (tr = true -> partial_equivalence (fun x y => same x y = true)) ->
  sr_distance same (edit_type tr) (ty, A) (ty, B) = Ok d ->
  ((d == 0)%Q <-> Forall2 (fun x y => same x y = true) A B).
Proof. exact @edit_zero. Qed.
Theorem C11_one : forall F (same : F -> F -> bool) tr ty A B d, fits A B -> A <> [] \/ B <> [] ->
  (tr = true -> partial_equivalence (fun x y => same x y = true)) ->
  disjoint (fun x y => same x y = true) A B ->
  sr_distance same (edit_type tr) (ty, A) (ty, B) = Ok d -> (d == 1)%Q.
Proof. exact @edit_one. Qed.
Theorem C11_symmetric : forall F (same : F -> F -> bool) tr ty A B, fits A B ->
  (forall x y, same x y = same y x) ->
  (tr = true -> partial_equivalence (fun x y => same x y = true)) ->
  sr_distance same (edit_type tr) (ty, A) (ty, B) = sr_distance same (edit_type tr) (ty, B) (ty, A).
Proof. exact @edit_sym. Qed.
(** The returned float, the rounding of [k] edits over [n] frames, obeys the same laws. *)
Theorem C11_rounded : forall k n : nat, (k <= n)%nat -> (0 < n)%nat -> Z.of_nat n <= int_max ->
  (0 <= lev_float (Z.of_nat k) (Z.of_nat n) <= 1)%R /\
  (lev_float (Z.of_nat k) (Z.of_nat n) = 0%R <-> k = 0%nat) /\
  lev_float (Z.of_nat n) (Z.of_nat n) = 1%R.
Proof. exact edit_rounded. Qed.
Theorem C11_types_differ : forall F (same : F -> F -> bool) dt ty1 ty2 A B,
  ty1 <> ty2 -> sr_distance same dt (ty1, A) (ty2, B) = Ok 1%Q.
Proof. exact @dist_types_differ. Qed.
(** A gdb thread with an unknown function is not at distance 0 from itself. *)
Theorem C11_gdb_self_refuted : exists (A : list frame) d,
  sr_distance frame_same LEVENSHTEIN (5%nat, A) (5%nat, A) = Ok d /\ (d == 1)%Q.
Proof. exists [gdb_fun "??" None]. eexists. split; reflexivity. Qed.
Example C11_case : disjoint (fun x y => Nat.eqb x y = true) [1; 2]%nat [3; 4; 5]%nat /\
  sr_distance Nat.eqb (edit_type true) (1%nat, [1; 2]%nat) (1%nat, [3; 4; 5]%nat) = Ok (quotient 3 3).
Proof.
  split; [|reflexivity]. intros x Hx (y & Hy & E). apply Nat.eqb_eq in E. subst.
  cbn in Hx, Hy. lia.
Qed.

(** ** C12: Jaccard distance for a comparison that is an equivalence. *)
Theorem C12_value : forall F (same : F -> F -> bool), equivalence (fun x y => same x y = true) ->
  forall l1 l2 I U, common (fun x y => same x y = true) l1 l2 I ->
  distinct (fun x y => same x y = true) (l1 ++ l2) U ->
  distance_jaccard same l1 l2 =
    (if Z.of_nat (length U) =? 0 then 0 else 1 - inject_Z (Z.of_nat (length I)) / inject_Z (Z.of_nat (length U)))%Q.
Proof. exact @jaccard_value. Qed.
Theorem C12_representatives_exist : forall F (same : F -> F -> bool), equivalence (fun x y => same x y = true) ->
  forall l1 l2, exists I U, common (fun x y => same x y = true) l1 l2 I /\
  distinct (fun x y => same x y = true) (l1 ++ l2) U.
Proof. exact @jaccard_ex. Qed.
Theorem C12_range : forall F (same : F -> F -> bool), equivalence (fun x y => same x y = true) ->
  forall l1 l2, (0 <= distance_jaccard same l1 l2 <= 1)%Q.
Proof. exact @jaccard_range. Qed.
Theorem C12_symmetric : forall F (same : F -> F -> bool), equivalence (fun x y => same x y = true) ->
  forall l1 l2, distance_jaccard same l1 l2 = distance_jaccard same l2 l1.
Proof. exact @jaccard_sym. Qed.
Theorem C12_order_and_repetition : forall F (same : F -> F -> bool), equivalence (fun x y => same x y = true) ->
  forall l1 l1' l2, same_frames (fun x y => same x y = true) l1 l1' ->
  distance_jaccard same l1 l2 = distance_jaccard same l1' l2.
Proof. exact @jaccard_same_frames. Qed.
Theorem C12_zero : forall F (same : F -> F -> bool), equivalence (fun x y => same x y = true) ->
  forall l1 l2, (distance_jaccard same l1 l2 == 0)%Q <-> same_frames (fun x y => same x y = true) l1 l2.
Proof. exact @jaccard_zero. Qed.
Theorem C12_one : forall F (same : F -> F -> bool), equivalence (fun x y => same x y = true) ->
  forall l1 l2, (distance_jaccard same l1 l2 == 1)%Q <->
    (l1 <> [] \/ l2 <> []) /\ disjoint (fun x y => same x y = true) l1 l2.
Proof. exact @jaccard_one. Qed.
Theorem C12_rounded : forall i u : nat, (i <= u)%nat -> (0 < u)%nat -> Z.of_nat u <= int_max ->
  (0 <= jaccard_float (Z.of_nat i) (Z.of_nat u) <= 1)%R.
Proof. exact jaccard_rounded. Qed.
(** The comparisons of five frame types are equivalences. *)
Theorem C12_equivalences :
  equivalence (fun f g => (python_frame_cmp_distance f g =? 0) = true) /\
  equivalence (fun f g => (koops_frame_cmp_distance f g =? 0) = true) /\
  equivalence (fun f g => (java_frame_cmp_distance f g =? 0) = true) /\
  equivalence (fun f g => (ruby_frame_cmp_distance f g =? 0) = true) /\
  equivalence (fun f g => (js_frame_cmp_distance f g =? 0) = true).
Proof. exact (conj python_equiv (conj koops_equiv (conj java_equiv (conj ruby_equiv js_equiv)))). Qed.
(** For gdb: distance 1 from itself (unknown function), and not symmetric (missing library). *)
Theorem C12_gdb_self_refuted : exists A : list frame, (distance_jaccard frame_same A A == 1)%Q.
Proof. exists [gdb_fun "??" None]. reflexivity. Qed.
Theorem C12_gdb_symmetric_refuted : exists A B : list frame,
  (distance_jaccard frame_same A B == 0)%Q /\ (distance_jaccard frame_same B A == 1 # 2)%Q.
Proof.
  exists [gdb_fun "f" (Some "A"%string); gdb_fun "f" (Some "B"%string)], [gdb_fun "f" None]. split; reflexivity.
Qed.
(** For core frames the comparison is not transitive either: a frame without a function name is
    matched by build id. *)
Theorem C12_core_refuted : exists f g h : frame,
  frame_same f g = true /\ frame_same g h = true /\ frame_same f h = false.
Proof.
  exists (FCore (mk_core_frame 0 None 0 (Some (L "f")) None None true)),
    (FCore (mk_core_frame 0 None 0 None None None true)),
    (FCore (mk_core_frame 0 None 0 (Some (L "g")) None None true)).
  repeat split.
Qed.
Example C12_case : (distance_jaccard Nat.eqb [1; 2; 2; 3]%nat [3; 2; 5; 5]%nat == 1 # 2)%Q /\
  equivalence (fun x y => Nat.eqb x y = true).
Proof.
  split; [reflexivity|]. split; [exact Nat.eqb_refl|]. split; intros *; rewrite !Nat.eqb_eq; congruence.
Qed.

(** ** C13: Jaro-Winkler. *)
Theorem C13_no_match : forall F (same : F -> F -> bool) fs1 fs2, fs1 <> [] \/ fs2 <> [] ->
  disjoint (fun x y => same x y = true) fs1 fs2 -> distance_jaro_winkler same fs1 fs2 = 0%Q.
Proof. exact @jw_no_match. Qed.
Theorem C13_range : forall F (same : F -> F -> bool),
  (forall x y, same x y = true -> same y x = true) ->
  (forall x y z, same x y = true -> same y z = true -> same x z = true) ->
  forall fs1 fs2, no_repeats (fun x y => same x y = true) fs1 ->
  (0 <= distance_jaro_winkler same fs1 fs2 <= 1)%Q.
Proof. exact @jw_range. Qed.
Theorem C13_identical : forall F (same : F -> F -> bool),
  (forall x y, same x y = true -> same y x = true) ->
  (forall x y z, same x y = true -> same y z = true -> same x z = true) ->
  forall fs1 fs2, no_repeats (fun x y => same x y = true) fs1 -> (2 <= length fs1)%nat ->
  ((distance_jaro_winkler same fs1 fs2 == 1)%Q <-> Forall2 (fun x y => same x y = true) fs1 fs2).
Proof. exact @jw_identical. Qed.
Theorem C13_both_empty : forall F (same : F -> F -> bool), distance_jaro_winkler same [] [] = 1%Q.
Proof. exact @jw_both_empty. Qed.
Theorem C13_exceeds_one_refuted : exists fs1 fs2 : list nat, (1 < distance_jaro_winkler Nat.eqb fs1 fs2)%Q.
Proof. exists (repeat 1%nat 10), [1%nat]. reflexivity. Qed.
Theorem C13_one_frame_refuted : exists fs : list nat, fs <> [] /\ (distance_jaro_winkler Nat.eqb fs fs == 0)%Q.
Proof. exists [1%nat]. split; [discriminate | reflexivity]. Qed.
Example C13_case : no_repeats (fun x y => Nat.eqb x y = true) [1; 2; 3; 4]%nat /\
  (distance_jaro_winkler Nat.eqb [1; 2; 3; 4]%nat [1; 3; 2; 4]%nat == 14 # 15)%Q.
Proof.
  split; [|vm_compute; reflexivity].
  repeat (apply nr_cons; [intros y Hy E; apply Nat.eqb_eq in E; cbn in Hy; lia|]). apply nr_nil.
Qed.
Print Assumptions C09_minimal.
Print Assumptions C09_empty.
Print Assumptions C10_minimal.
Print Assumptions C10_not_larger.
Print Assumptions C10_gdb_refuted.
Print Assumptions C11_range.
Print Assumptions C11_zero.
Print Assumptions C11_one.
Print Assumptions C11_symmetric.
Print Assumptions C11_rounded.
Print Assumptions C11_types_differ.
Print Assumptions C11_gdb_self_refuted.
Print Assumptions C12_value.
Print Assumptions C12_representatives_exist.
Print Assumptions C12_range.
Print Assumptions C12_symmetric.
Print Assumptions C12_order_and_repetition.
Print Assumptions C12_zero.
Print Assumptions C12_one.
Print Assumptions C12_rounded.
Print Assumptions C12_equivalences.
Print Assumptions C12_gdb_self_refuted.
Print Assumptions C12_gdb_symmetric_refuted.
Print Assumptions C12_core_refuted.
Print Assumptions C13_no_match.
Print Assumptions C13_range.
Print Assumptions C13_identical.
Print Assumptions C13_both_empty.
Print Assumptions C13_exceeds_one_refuted.
Print Assumptions C13_one_frame_refuted.
