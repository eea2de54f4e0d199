(** * Specification: what a comparison function must satisfy. *)
From Verif Require Import Base.
Open Scope Z_scope.

(** [cmp] compares values meeting [ok]: it returns 0 exactly for values that agree (in the sense
    of [eqv]), swapping its arguments flips the sign of the result, and "not greater" is
    transitive.  Only the sign of the result matters, as for qsort. *)
Definition orders {A} (ok : A -> Prop) (eqv : A -> A -> Prop) (cmp : A -> A -> Z) : Prop :=
  (forall x y, ok x -> ok y -> (cmp x y = 0 <-> eqv x y)) /\
  (forall x y, ok x -> ok y -> Z.sgn (cmp y x) = - Z.sgn (cmp x y)) /\
  (forall x y z, ok x -> ok y -> ok z -> cmp x y <= 0 -> cmp y z <= 0 -> cmp x z <= 0).
(** 31-bit values: differences of two of them fit an int. *)
Definition small (z : Z) : Prop := 0 <= z < 2147483648.
(** The same with the value a missing line number has, UINT32_MAX, which compares as -1. *)
Definition small_or_unknown (z : Z) : Prop := 0 <= z < 2147483647 \/ z = 4294967295.
