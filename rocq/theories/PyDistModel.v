(** * Distances, parts of them and dendrograms in Python: python/py_metrics.c and python/py_cluster.c.

    A method gives a value or raises an exception.  Floats are values of an arbitrary type, threads are those of
    DistMatrixModel.v (their frames have been linked: C69).  A C int is a [Z]; arguments are Python integers.
    Not modelled: reference counts, exhausted memory, and the array of threads on the stack, whose size may be 0. *)
From Verif Require Import Base DistMatrixModel ClusterModel.
Open Scope Z_scope.

Inductive exc := TypeError | ValueError | RuntimeError | OverflowError | SystemError.
Inductive py (A : Type) := Return (a : A) | Raise (e : exc).
Arguments Return {A}. Arguments Raise {A}.
Definition pyres A := res (py A).
Definition ret {A} (a : A) : pyres A := Ok (Return a).
Definition raise {A} (e : exc) : pyres A := Ok (Raise e).
(* calling on: an exception ends the method *)
Definition andthen {A B} (x : pyres A) (f : A -> pyres B) : pyres B :=
  do r <- x; match r with Return a => f a | Raise e => raise e end.
(* PyArg_ParseTuple, "i": an int, OverflowError outside; "I" and "K": no check, reduced modulo 2^32 and 2^64 *)
Definition arg_i (z : Z) : pyres Z := if (- int_max - 1 <=? z) && (z <=? int_max) then ret z else raise OverflowError.
Definition arg_I (z : Z) : Z := z mod 2 ^ 32.
Definition arg_K (z : Z) : Z := z mod 2 ^ 64.
(* include/distance.h:41-87: SR_DISTANCE_JARO_WINKLER is 0, SR_DISTANCE_NUM 4 *)
Definition JARO_WINKLER : Z := 0.
Definition DISTANCE_NUM : Z := 4.
(* python/py_metrics.c:174-187 validate_distance_params *)
Definition validate (m n dt : Z) : pyres unit :=
  if (m <? 1) || (n <? 2) then raise ValueError
  else if (dt <? 0) || (DISTANCE_NUM <=? dt) then raise ValueError
  else if dt =? JARO_WINKLER then raise ValueError
  else ret tt.

Section Distances.
Variables T F : Type.
Variable ttype : T -> nat.
Variable cmp : Z -> T -> T -> F.
Variable frame_count : T -> Z.
Variable cksum : list Z -> Z.
Variable zero : F.
Definition Part := part F Z.

(* python/py_metrics.c:189-220 prepare_thread_array, what remains after C69: all threads have one type *)
Definition prepare (threads : list T) : pyres unit :=
  match threads with
  | [] => ret tt
  | t :: r => if forallb (fun u => Nat.eqb (ttype t) (ttype u)) r then ret tt else raise TypeError
  end.
(* python/py_metrics.c:222-266 sr_py_distances_new, Distances(threads, m, dist_type) *)
Definition distances_of (threads : list T) (m dt : Z) : pyres (matrix F) :=
  andthen (arg_i m) (fun m => andthen (arg_i dt) (fun dt =>
    let n := Z.of_nat (length threads) in
    andthen (validate m n dt) (fun _ => andthen (prepare threads) (fun _ =>
      do d <- threads_compare ttype cmp threads m n dt; ret d)))).
(* the same, Distances(m, n) *)
Definition distances_sized (m n : Z) : pyres (matrix F) :=
  andthen (arg_i m) (fun m => andthen (arg_i n) (fun n =>
    if (m <? 1) || (n <? 2) then raise ValueError
    else do d <- distances_new F m n; ret d)).
(* python/py_metrics.c:290-296 sr_py_distances_get_size *)
Definition get_size (d : matrix F) : Z * Z := (mx_m d, mx_n d).
(* python/py_metrics.c:298-313 sr_py_distances_get_distance *)
Definition py_get_distance (d : matrix F) (i j : Z) : pyres F :=
  andthen (arg_i i) (fun i => andthen (arg_i j) (fun j =>
    if (i <? 0) || (j <? 0) || (mx_m d <=? i) || (mx_n d <=? j) then raise ValueError
    else do f <- get_distance zero d i j; ret f)).
(* python/py_metrics.c:315-332 sr_py_distances_set_distance *)
Definition py_set_distance (d : matrix F) (i j : Z) (f : F) : pyres (matrix F) :=
  andthen (arg_i i) (fun i => andthen (arg_i j) (fun j =>
    if (i <? 0) || (j <? 0) || (mx_m d <=? i) || (mx_n d <=? j) then raise ValueError
    else do d <- set_distance d i j f; ret d)).
(* python/py_metrics.c:334-350 sr_py_distances_dup *)
Definition py_distances_dup (d : matrix F) : pyres (matrix F) := do d <- distances_dup d; ret d.

(** ** Parts *)
(* What pickling keeps: the arguments of the constructor.  Distances: None, or the numbers. *)
Record pickle := Pickle { k_m : Z; k_n : Z; k_m_begin : Z; k_n_begin : Z; k_len : Z; k_type : Z; k_checksum : Z; k_distances : option (list F) }.
(* python/py_metrics.c:493-534 sr_py_distances_part_reduce; the buffer has part->len floats (reading beyond is [UB]) *)
Definition reduce (p : Part) : res pickle :=
  do ds <- match pt_distances p with
           | None => Ok None
           | Some vals => if (length vals <? Z.to_nat (pt_len p))%nat then UB else Ok (Some (firstn (Z.to_nat (pt_len p)) vals))
           end;
  Ok (Pickle (pt_m p) (pt_n p) (pt_m_begin p) (pt_n_begin p) (arg_K (pt_len p)) (pt_type p) (arg_K (pt_checksum p)) ds).
(* python/py_metrics.c:422-471 sr_py_distances_part_new; lib/distance.c:472-486 sr_distances_part_new.  A list longer
   than the buffer of part->len floats is written past its end.  Simplification: one that is shorter leaves floats that
   may not be read, which is [UB] here at once. *)
Definition part_from (k : pickle) : pyres Part :=
  andthen (arg_i (k_m k)) (fun m => andthen (arg_i (k_n k)) (fun n => andthen (arg_i (k_m_begin k)) (fun mb =>
  andthen (arg_i (k_n_begin k)) (fun nb => andthen (arg_i (k_type k)) (fun dt =>
    let len := arg_K (k_len k) in
    do ds <- match k_distances k with
             | None => Ok None
             | Some vals => if Z.of_nat (length vals) =? len then Ok (Some vals) else UB
             end;
    ret (mk_part m n mb nb len dt (arg_K (k_checksum k) mod 2 ^ 32) ds)))))).
(* python/py_metrics.c:536-580 sr_py_distances_part_create *)
Definition py_part_create (n nparts m dt : Z) : pyres (list Part) :=
  andthen (arg_i n) (fun n => andthen (arg_i m) (fun m => andthen (arg_i dt) (fun dt =>
    do m <- (if m =? 0 then chk (n - 1) else Ok m);
    andthen (validate m n dt) (fun _ =>
      do ps <- part_create F m n dt (arg_I nparts); ret ps)))).
(* python/py_metrics.c:582-605 sr_py_distances_part_compute *)
Definition py_part_compute (p : Part) (threads : list T) : pyres Part :=
  andthen (prepare threads) (fun _ =>
    if negb (Z.of_nat (length threads) =? pt_n p) then raise ValueError
    else do p <- part_compute cmp frame_count cksum threads p; ret p).
(* The part objects of a program: each part and the link to the next.  An item of a list is such an object, or
   (None) another one. *)
Definition pstore := list (Part * option nat).
Fixpoint set_link (st : pstore) (r : nat) (n : option nat) : res pstore :=
  match st, r with
  | [], _ => UB
  | (p, _) :: st, O => Ok ((p, n) :: st)
  | x :: st, S r => do st <- set_link st r n; Ok (x :: st)
  end.
(* python/py_metrics.c:352-394 parts_prepare_linked_list, the loop *)
Fixpoint link_parts (items : list (option nat)) (prev : option nat) (st : pstore) : pyres pstore :=
  match items with
  | [] => match prev with None => ret st | Some q => do st <- set_link st q None; ret st end
  | None :: _ => raise TypeError
  | Some r :: items =>
    do st <- match prev with None => Ok st | Some q => set_link st q (Some r) end;
    link_parts items (Some r) st
  end.
Fixpoint linked (fuel : nat) (st : pstore) (r : option nat) : res (list Part) :=
  match r with
  | None => Ok []
  | Some r =>
    match fuel with
    | O => UB
    | S fuel =>
      match nth_error st r with
      | Some (p, n) => do ps <- linked fuel st n; Ok (p :: ps)
      | None => UB
      end
    end
  end.
(* python/py_metrics.c:396-420 sr_py_distances_merge_parts; without parts no exception is set, which the interpreter
   turns into a SystemError *)
Definition merge_parts (items : list (option nat)) (st : pstore) : pyres (matrix F) :=
  andthen (link_parts items None st) (fun st =>
    match items with
    | Some r :: _ =>
      do ps <- linked (S (length st)) st (Some r);
      match part_merge ps with
      | Ok d => ret d
      | Fail => raise RuntimeError
      | UB => UB
      end
    | _ => raise SystemError
    end).

(** ** Dendrograms *)
Variable gt le : F -> F -> bool.
Variable avg : F -> Z -> F -> Z -> F.
(* python/py_cluster.c:85-105 sr_py_dendrogram_new *)
Definition py_cluster (d : matrix F) : pyres (@dendrogram F) := do g <- cluster_objects zero gt le avg d; ret g.
(* python/py_cluster.c:129-135 sr_py_dendrogram_get_size *)
Definition dendrogram_size (g : @dendrogram F) : Z := Z.of_nat (length (dg_order g)).
(* python/py_cluster.c:137-152 sr_py_dendrogram_get_object *)
Definition get_object (g : @dendrogram F) (i : Z) : pyres Z :=
  andthen (arg_i i) (fun i =>
    if (i <? 0) || (dendrogram_size g <=? i) then raise ValueError
    else do o <- load (dg_order g) i; ret o).
(* python/py_cluster.c:154-169 sr_py_dendrogram_get_merge_level *)
Definition get_merge_level (g : @dendrogram F) (i : Z) : pyres F :=
  andthen (arg_i i) (fun i =>
    if (i <? 0) || (dendrogram_size g <? i) then raise ValueError
    else do o <- load (dg_levels g) i; ret o).
(* python/py_cluster.c:171-200 sr_py_dendrogram_cut *)
Definition py_cut (g : @dendrogram F) (level : F) (min_size : Z) : pyres (list (list Z)) :=
  andthen (arg_i min_size) (fun min_size => do cs <- dendrogram_cut le g level min_size; ret cs).
End Distances.
Arguments distances_of {T F}. Arguments distances_sized {F}. Arguments get_size {F}. Arguments py_get_distance {F}.
Arguments py_set_distance {F}. Arguments py_distances_dup {F}. Arguments Pickle {F}. Arguments reduce {F}. Arguments part_from {F}.
Arguments py_part_create {F}. Arguments py_part_compute {T F}. Arguments set_link {F}. Arguments link_parts {F}. Arguments linked {F}.
Arguments merge_parts {F}. Arguments py_cluster {F}. Arguments dendrogram_size {F}. Arguments get_object {F}. Arguments get_merge_level {F}.
Arguments py_cut {F}. Arguments prepare {T}.
Arguments k_m {F}. Arguments k_n {F}. Arguments k_m_begin {F}. Arguments k_n_begin {F}. Arguments k_len {F}. Arguments k_type {F}.
Arguments k_checksum {F}. Arguments k_distances {F}.
