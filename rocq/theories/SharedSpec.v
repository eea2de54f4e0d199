(** * Specification: threads that share frames. *)
From Verif Require Import Base.

(** [b] is [a] with one more frame somewhere. *)
Definition one_more {F} (a b : list F) : Prop := exists before x after, a = before ++ after /\ b = before ++ x :: after.
(** [b] is [a] with one frame changed. *)
Definition one_changed {F} (a b : list F) : Prop := exists before x y after, a = before ++ x :: after /\ b = before ++ y :: after.
