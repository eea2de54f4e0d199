(** * Specifications: edit scripts, distinct frames. *)
From Verif Require Import Base.

Section Spec.
Context {F : Type} (same : F -> F -> Prop).

(** [edits swap a b k]: [a] can be turned into [b] by walking over both from left to right, each
    step keeping a frame (both frames must be the same), changing, deleting or inserting one, or,
    if [swap] is allowed, exchanging two adjacent frames; every step but keeping costs one. *)
Inductive edits (swap : Prop) : list F -> list F -> nat -> Prop :=
| e_done : edits swap [] [] 0
| e_keep x y a b k : same x y -> edits swap a b k -> edits swap (x :: a) (y :: b) k
| e_change x y a b k : edits swap a b k -> edits swap (x :: a) (y :: b) (S k)
| e_delete x a b k : edits swap a b k -> edits swap (x :: a) b (S k)
| e_insert y a b k : edits swap a b k -> edits swap a (y :: b) (S k)
| e_swap x1 x2 y1 y2 a b k : swap -> same x1 y2 -> same x2 y1 ->
    edits swap a b k -> edits swap (x1 :: x2 :: a) (y1 :: y2 :: b) (S k).
Definition minimal_edits (swap : Prop) (a b : list F) (k : nat) : Prop :=
  edits swap a b k /\ forall k', edits swap a b k' -> k <= k'.

(** [r] picks one representative of every distinct frame of [l]. *)
Inductive no_repeats : list F -> Prop :=
| nr_nil : no_repeats []
| nr_cons x l : (forall y, In y l -> ~ same x y) -> no_repeats l -> no_repeats (x :: l).
Definition distinct (l r : list F) : Prop :=
  no_repeats r /\ (forall x, In x r -> In x l) /\ (forall x, In x l -> exists y, In y r /\ same x y).
Definition occurs (x : F) (l : list F) : Prop := exists y, In y l /\ same x y.
Definition equivalence : Prop :=
  (forall x, same x x) /\ (forall x y, same x y -> same y x) /\ (forall x y z, same x y -> same y z -> same x z).
Definition partial_equivalence : Prop :=
  (forall x y, same x y -> same y x) /\ (forall x y z, same x y -> same y z -> same x z).
End Spec.

Section Common.
Context {F : Type} (same : F -> F -> Prop).
(** [r] picks one representative of every distinct frame of [l1] that also occurs in [l2]. *)
Definition common (l1 l2 r : list F) : Prop :=
  no_repeats same r /\ (forall x, In x r -> In x l1 /\ occurs same x l2) /\
  (forall x, In x l1 -> occurs same x l2 -> exists y, In y r /\ same x y).
(** Both contain the same frames, in any order and number. *)
Definition same_frames (l1 l2 : list F) : Prop :=
  (forall x, In x l1 -> occurs same x l2) /\ (forall x, In x l2 -> occurs same x l1).
Definition disjoint (l1 l2 : list F) : Prop := forall x, In x l1 -> ~ occurs same x l2.
End Common.
