(** * Specification: objects that fall apart into groups. *)
From Coq Require Import QArith.
From Verif Require Import Base DistModel DistSpec.
Open Scope Z_scope.

(** Two objects are near when they are one object or at most [t] apart. *)
Definition near (d : Z -> Z -> Q) (t : Q) (x y : Z) : Prop := x = y \/ (d x y <= t)%Q.
(** The objects 0..n-1 fall apart at [t]: what is near to one object is near to each other. *)
Definition falls_apart (n : Z) (d : Z -> Z -> Q) (t : Q) : Prop :=
  (forall x y, 0 <= x < n -> 0 <= y < n -> near d t x y -> near d t y x) /\
  (forall x y z, 0 <= x < n -> 0 <= y < n -> 0 <= z < n -> near d t x y -> near d t y z -> near d t x z).
(** [cs] lists the groups of at least [min_size] objects that [r] relates: no object is listed twice, a group holds
    one object, those related to it and nothing else, and an object is listed when at least [min_size] different
    objects are related to it. *)
Definition groups_of (n : Z) (r : Z -> Z -> Prop) (min_size : Z) (cs : list (list Z)) : Prop :=
  NoDup (concat cs) /\
  (forall c, In c cs -> c <> [] /\ min_size <= Z.of_nat (length c) /\ forall x, In x c -> 0 <= x < n) /\
  (forall c x y, In c cs -> In x c -> 0 <= y < n -> (In y c <-> r x y)) /\
  (forall x, 0 <= x < n ->
    ((exists c, In c cs /\ In x c) <->
     exists l, NoDup l /\ min_size <= Z.of_nat (length l) /\ forall y, In y l -> 0 <= y < n /\ r x y)).
(** The value of a distance that is computed without an error. *)
Definition value_of {F} (same : F -> F -> bool) (dt : distance_type) (a b : nat * list F) : Q :=
  match sr_distance same dt a b with Ok v => v | _ => 0%Q end.
(** The thread at a position of a list, and the distance of the threads at two positions. *)
Definition at_pos {F} (threads : list (nat * list F)) (x : nat * list F) (i : Z) : nat * list F := nth (Z.to_nat i) threads x.
Definition apart {F} (same : F -> F -> bool) (threads : list (nat * list F)) (x : nat * list F) (dt : distance_type) (i j : Z) : Q :=
  value_of same dt (at_pos threads x (Z.min i j)) (at_pos threads x (Z.max i j)).
