(** * Specification: what a Python program sees of distances, their parts and dendrograms. *)
From Verif Require Import Base DistMatrixModel DistMatrixSpec PyDistModel.
Open Scope Z_scope.

Definition is_int (z : Z) : Prop := -2147483648 <= z <= 2147483647.
(** The three distances of threads: Jaccard, Levenshtein, Damerau-Levenshtein. *)
Definition measure (dt : Z) : Prop := dt = 1 \/ dt = 2 \/ dt = 3.
Definition same_type {T} (ttype : T -> nat) (threads : list T) : Prop := forall a b, In a threads -> In b threads -> ttype a = ttype b.
Definition within (m n i j : Z) : Prop := 0 <= i < m /\ 0 <= j < n.
Definition withinb (m n i j : Z) : bool := (0 <=? i) && (i <? m) && (0 <=? j) && (j <? n).

(** A program that calls set_distance again and again and catches what it raises. *)
Fixpoint calls {F} (d : matrix F) (hist : list (Z * Z * F)) : res (matrix F * list (option exc)) :=
  match hist with
  | [] => Ok (d, [])
  | (i, j, f) :: hist =>
    match py_set_distance d i j f with
    | Ok (Return d') => do r <- calls d' hist; Ok (fst r, None :: snd r)
    | Ok (Raise e) => do r <- calls d hist; Ok (fst r, Some e :: snd r)
    | Fail => Fail
    | UB => UB
    end
  end.
(** What each call raises. *)
Definition isintb (z : Z) : bool := (-2147483648 <=? z) && (z <=? 2147483647).
Definition answer (m n : Z) {F} (s : Z * Z * F) : option exc :=
  if isintb (fst (fst s)) && isintb (snd (fst s)) then
    if withinb m n (fst (fst s)) (snd (fst s)) then None else Some ValueError
  else Some OverflowError.
(** The calls that count. *)
Definition accepted (m n : Z) {F} (hist : list (Z * Z * F)) : list (Z * Z * F) :=
  filter (fun s => withinb m n (fst (fst s)) (snd (fst s)) && negb (fst (fst s) =? snd (fst s))) hist.

(** Pickling and unpickling gives an equal part. *)
Definition pickles {F} (p : Part F) : Prop := exists k, reduce p = Ok k /\ part_from k = ret p.
(** The object [r] holds the part [p], with whatever link. *)
Definition holds {F} (st : pstore F) (r : nat) (p : Part F) : Prop := exists l, nth_error st r = Some (p, l).
