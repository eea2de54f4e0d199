(** * Common vocabulary: bytes, C strings, outcomes. *)
From Coq Require Export List Ascii String ZArith NArith Arith Lia Bool Permutation.
Export ListNotations.
Open Scope list_scope.
(* [String.length], [String.append] must not shadow the list versions. *)
Notation length := List.length.
Notation concat := List.concat.

(** A C string: its bytes without the terminating NUL. *)
Notation str := (list ascii).

(** String literals of the C source. *)
Definition L (s : string) : str := list_ascii_of_string s.
Arguments L s%string.

Definition nul : ascii := "000"%char.
Definition nl : ascii := "010"%char.
Definition tab : ascii := "009"%char.
Definition sp : ascii := " "%char.
Definition dquote : ascii := """"%char.

(** A list of bytes really is a C string when no byte is NUL. *)
Definition cstr (s : str) : Prop := ~ In nul s.

(** Outcomes: normal return, error return, undefined behaviour (out-of-bounds access, NULL
    dereference, failed assertion, double free). *)
Inductive res (A : Type) : Type :=
| Ok (a : A)
| Fail
| UB.
Arguments Ok {A} a.
Arguments Fail {A}.
Arguments UB {A}.

Definition bind {A B} (r : res A) (f : A -> res B) : res B :=
  match r with Ok a => f a | Fail => Fail | UB => UB end.
Notation "'do' x <- e ; f" := (bind e (fun x => f)) (at level 200, x pattern, e at level 100, f at level 200).

(** The character under a cursor; NUL at the end of the string. *)
Definition cur (s : str) : ascii := match s with [] => nul | c :: _ => c end.

(** Membership of a byte in a set of bytes given as a string. *)
Definition mem (c : ascii) (set : str) : bool := existsb (Ascii.eqb c) set.

(** Longest prefix satisfying [p], and the rest. *)
Fixpoint span (p : ascii -> bool) (s : str) : str * str :=
  match s with
  | [] => ([], [])
  | c :: r => if p c then let '(a, b) := span p r in (c :: a, b) else ([], s)
  end.

Fixpoint starts_with (pre s : str) : bool :=
  match pre, s with
  | [], _ => true
  | a :: p, b :: r => Ascii.eqb a b && starts_with p r
  | _ :: _, [] => false
  end.

Fixpoint str_eqb (a b : str) : bool :=
  match a, b with
  | [], [] => true
  | x :: a', y :: b' => Ascii.eqb x y && str_eqb a' b'
  | _, _ => false
  end.

Definition opt_str_eqb (a b : option str) : bool :=
  match a, b with
  | None, None => true
  | Some x, Some y => str_eqb x y
  | _, _ => false
  end.

Definition code (c : ascii) : N := N_of_ascii c.

(** Keep [simpl] from unfolding binary arithmetic. *)
Global Arguments Z.add : simpl never.
Global Arguments Z.sub : simpl never.
Global Arguments Z.mul : simpl never.
Global Arguments N.add : simpl never.
Global Arguments N.sub : simpl never.
Global Arguments N.mul : simpl never.
