(** * Specification: a symmetric map on pairs of objects; all pairs in order. *)
From Verif Require Import Base.
Open Scope Z_scope.

(** Rows 0..m-1, columns 0..n-1 (m < n); a pair may be given in either order. *)
Definition in_range (m n i j : Z) : Prop := i <> j /\ 0 <= Z.min i j < m /\ Z.max i j < n.
Definition same_pair (i j i' j' : Z) : Prop := (i = i' /\ j = j') \/ (i = j' /\ j = i').

(** The pairs i < j of the matrix in row-major order, one row after the other. *)
Definition before (a b : Z * Z) : Prop := fst a < fst b \/ (fst a = fst b /\ snd a < snd b).
Definition upper (m n : Z) (p : Z * Z) : Prop := 0 <= fst p < m /\ fst p < snd p < n.
(** [l] lists exactly the pairs of the matrix, strictly increasing. *)
Inductive increasing : list (Z * Z) -> Prop :=
| inc_nil : increasing []
| inc_cons p l : Forall (before p) l -> increasing l -> increasing (p :: l).
Definition all_pairs (m n : Z) (l : list (Z * Z)) : Prop :=
  increasing l /\ forall p, In p l <-> upper m n p.
(** There are m rows with n-1, n-2, ..., n-m entries. *)
Definition entries (m n : Z) : Z := m * (n - 1) - m * (m - 1) / 2.

(** Sizes of [k] parts of [q] or [q+1] entries, the [r] larger ones first. *)
Definition part_sizes (k r q : nat) : list nat := repeat (S q) r ++ repeat q (k - r).

(** The value of the last assignment to the pair {i, j} in a history of assignments. *)
Definition same_pairb (i j i' j' : Z) : bool := ((i =? i') && (j =? j')) || ((i =? j') && (j =? i')).
Fixpoint last_set {D} (hist : list (Z * Z * D)) (i j : Z) : option D :=
  match hist with
  | [] => None
  | (a, b, v) :: rest =>
    match last_set rest i j with
    | Some w => Some w
    | None => if same_pairb i j a b then Some v else None
    end
  end.
