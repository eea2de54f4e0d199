(** * Specification: maximal runs of a dendrogram; average linkage. *)
From Coq Require Import QArith SetoidPermutation.
From Verif Require Import Base.
Open Scope Z_scope.

(** ** Runs.  A dendrogram of n objects has n-1 levels, level k between the objects k and k+1. *)
Section Runs.
Context {D : Type} (le : D -> D -> bool).
(** Positions [a..b] form a maximal run: all levels inside are at most [t], the levels at both
    ends, if any, are not. *)
Definition maximal_run (levels : list D) (n : nat) (t : D) (a b : nat) : Prop :=
  (a <= b < n)%nat /\
  (forall k v, (a <= k < b)%nat -> nth_error levels k = Some v -> le v t = true) /\
  (forall v, (0 < a)%nat -> nth_error levels (a - 1) = Some v -> le v t = false) /\
  (forall v, (b + 1 < n)%nat -> nth_error levels b = Some v -> le v t = false).
Definition slice {A} (l : list A) (a b : nat) : list A := firstn (b - a + 1) (skipn a l).
End Runs.

(** ** Average linkage.  Objects are integers, [d] their distance, a group a list of objects. *)
Section Linkage.
Variable d : Z -> Z -> Q.
Definition sumQ (l : list Q) : Q := fold_right Qplus 0%Q l.
Definition count (g : list Z) : Q := inject_Z (Z.of_nat (length g)).
(** The average of all distances between a member of [g] and a member of [h]. *)
Definition link (g h : list Z) : Q :=
  (sumQ (flat_map (fun x => map (d x) h) g) / (count g * count h))%Q.
(** [merging t gs gs']: repeatedly merging two closest groups, while they are at most [t] apart,
    leads from [gs] to [gs'].  Where several pairs are closest any of them may be merged, and the
    members of the merged group may be listed in any order. *)
Inductive merging (t : Q) : list (list Z) -> list (list Z) -> Prop :=
| m_stop gs :
    (forall g h rest, Permutation gs (g :: h :: rest) -> (t < link g h)%Q) -> merging t gs gs
| m_merge gs g h gh rest gs' :
    Permutation gs (g :: h :: rest) -> (link g h <= t)%Q ->
    (forall g' h' rest', Permutation gs (g' :: h' :: rest') -> (link g h <= link g' h')%Q) ->
    Permutation gh (g ++ h) ->
    merging t (gh :: rest) gs' -> merging t gs gs'.
End Linkage.
(** The same groups, in any order and with members in any order. *)
Definition same_groups : list (list Z) -> list (list Z) -> Prop := PermutationA (@Permutation Z).
