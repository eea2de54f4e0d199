(** * Reading a buffer at an index, for the parsers that scan backwards. *)
From Verif Require Import Base UtilsModel.
Open Scope nat_scope.

(** The byte at index [i] of a C string: the terminator at its end, undefined behaviour beyond. *)
Definition byte_at (buf : str) (i : nat) : res ascii :=
  if length buf <? i then UB else Ok (nth i buf nul).
(* do p-- while p >= start and the test holds of *p; p++ (lib/ruby_frame.c:229-232,
   lib/ruby_stacktrace.c:197-200).  [p] is the index of the pointer; the pointer before the start is
   formed but not read. *)
Fixpoint back_while (test : ascii -> bool) (buf : str) (p : nat) : res nat :=
  match p with
  | O => Ok O
  | S q => do c <- byte_at buf q; if test c then back_while test buf q else Ok p
  end.
