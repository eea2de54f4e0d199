(** * Model of the distance matrix and of distance parts (lib/distance.c:298-683).

    Floats are values of an arbitrary type [D]: the code only moves them.  The comparison of two
    threads is a function [cmp : dtype -> T -> T -> D]; the type of a thread is [ttype]; the
    SHA-1 based checksum is an arbitrary function [cksum] of the frame counts. *)
From Verif Require Import Base.
Open Scope Z_scope.

(** A C [int] result: outside its range the C program has undefined behaviour. *)
Definition int_max : Z := 2147483647.
Definition chk (z : Z) : res Z := if (- int_max - 1 <=? z) && (z <=? int_max) then Ok z else UB.
(** assert() *)
Definition assertb (b : bool) : res unit := if b then Ok tt else UB.

(** Array store; writing outside is undefined behaviour. *)
Fixpoint upd {A} (l : list A) (k : nat) (v : A) : list A :=
  match l, k with
  | [], _ => []
  | _ :: r, O => v :: r
  | x :: r, S k' => x :: upd r k' v
  end.
Definition store {A} (l : list A) (z : Z) (v : A) : res (list A) :=
  if (0 <=? z) && (z <? Z.of_nat (length l)) then Ok (upd l (Z.to_nat z) v) else UB.
Definition load {A} (l : list A) (z : Z) : res A :=
  if 0 <=? z then match nth_error l (Z.to_nat z) with Some v => Ok v | None => UB end else UB.

(* lib/distance.c:298-308 get_distance_position_mn *)
Definition position (m n i j : Z) : res Z :=
  do _ <- assertb ((i <? j) && (0 <=? i) && (i <? m) && (j <? n));
  let h := n in
  do l <- chk (n - i);
  do hh <- chk (h * h);
  do a <- chk (hh - h);
  do ll <- chk (l * l);
  do b <- chk (ll - l);
  do c <- chk (a - b);
  do d <- chk (Z.quot c 2 + j);
  chk (d - 1).

(* include/distance.h struct sr_distances; a cell that was never written is None *)
Record matrix (D : Type) := mk_matrix { mx_m : Z; mx_n : Z; mx_cells : list (option D) }.
Arguments mk_matrix {D}. Arguments mx_m {D}. Arguments mx_n {D}. Arguments mx_cells {D}.

(* lib/distance.c:316-335 sr_distances_new *)
Definition distances_new (D : Type) (m0 n : Z) : res (matrix D) :=
  do m <- (if n <=? m0 then chk (n - 1) else Ok m0);
  do _ <- assertb ((0 <? m) && (1 <? n) && (m <? n));
  do p <- position m n (m - 1) (n - 1);
  Ok (mk_matrix m n (repeat None (Z.to_nat (p + 1)))).

(* lib/distance.c:337-348 sr_distances_dup: the cells are copied byte by byte, so that unset
   cells are copied as such.  memcpy reads [count] cells of the old and writes those of the new. *)
Definition distances_dup {D} (d : matrix D) : res (matrix D) :=
  do new <- distances_new D (mx_m d) (mx_n d);
  do p <- position (mx_m d) (mx_n d) (mx_m d - 1) (mx_n d - 1);
  let count := Z.to_nat (p + 1) in
  if (count <=? length (mx_cells d))%nat && (count <=? length (mx_cells new))%nat
  then Ok (mk_matrix (mx_m new) (mx_n new) (firstn count (mx_cells d) ++ skipn count (mx_cells new)))
  else UB.

(* lib/distance.c:360-373 sr_distances_get_distance; [zero] is 0.0f; reading an unset cell is UB *)
Definition get_distance {D} (zero : D) (d : matrix D) (i j : Z) : res D :=
  if i =? j then Ok zero
  else
    let '(i, j) := if j <? i then (j, i) else (i, j) in
    do p <- position (mx_m d) (mx_n d) i j;
    do c <- load (mx_cells d) p;
    match c with Some v => Ok v | None => UB end.

(* the assignment distances->distances[get_distance_position(distances, i, j)] = v *)
Definition write_cell {D} (d : matrix D) (i j : Z) (v : D) : res (matrix D) :=
  do p <- position (mx_m d) (mx_n d) i j;
  do cells <- store (mx_cells d) p (Some v);
  Ok (mk_matrix (mx_m d) (mx_n d) cells).

(* lib/distance.c:375-391 sr_distances_set_distance *)
Definition set_distance {D} (d : matrix D) (i j : Z) (v : D) : res (matrix D) :=
  if i =? j then Ok d
  else let '(i, j) := if j <? i then (j, i) else (i, j) in write_cell d i j v.

(** a, a+1, ..., b-1 *)
Definition zrange (a b : Z) : list Z := map (fun k => a + Z.of_nat k) (seq 0 (Z.to_nat (b - a))).
(** for (i = 0; i < m; i++) for (j = i + 1; j < n; j++) *)
Definition loop_pairs (m n : Z) : list (Z * Z) :=
  flat_map (fun i => map (fun j => (i, j)) (zrange (i + 1) n)) (zrange 0 m).

Fixpoint fold_res {A B} (f : A -> B -> res A) (l : list B) (a : A) : res A :=
  match l with [] => Ok a | x :: r => do a' <- f a x; fold_res f r a' end.

(* lib/distance.c:436-470 sr_threads_compare.  The loop runs up to the caller's m. *)
Definition threads_compare {T D dtype} (ttype : T -> nat) (cmp : dtype -> T -> T -> D)
    (threads : list T) (m n : Z) (dt : dtype) : res (matrix D) :=
  do d <- distances_new D m n;
  if n <=? 0 then Ok d else
  do t0 <- load threads 0;
  do _ <- fold_res (fun prev i => do t <- load threads i;
                                  do _ <- assertb (Nat.eqb prev (ttype t)); Ok (ttype t))
                   (zrange 0 n) (ttype t0);
  fold_res (fun d '(i, j) => do a <- load threads i; do b <- load threads j; write_cell d i j (cmp dt a b))
           (loop_pairs m n) d.

(* include/distance.h struct sr_distances_part without the link *)
Record part (D dtype : Type) := mk_part {
  pt_m : Z; pt_n : Z; pt_m_begin : Z; pt_n_begin : Z; pt_len : Z;
  pt_type : dtype; pt_checksum : Z; pt_distances : option (list D) }.
Arguments mk_part {D dtype}. Arguments pt_m {D dtype}. Arguments pt_n {D dtype}.
Arguments pt_m_begin {D dtype}. Arguments pt_n_begin {D dtype}. Arguments pt_len {D dtype}.
Arguments pt_type {D dtype}. Arguments pt_checksum {D dtype}. Arguments pt_distances {D dtype}.

(* lib/distance.c:472-486 sr_distances_part_new *)
Definition part_new {D dtype} (m n : Z) (dt : dtype) (mb nb len : Z) : part D dtype :=
  mk_part m n mb nb len dt 0 None.

(* lib/distance.c:542-570: the body of the loop; state (begin, counter, per part, leftover) and
   the parts made so far *)
Definition part_step {D dtype} (m n : Z) (dt : dtype)
    (st : (Z * Z) * Z * Z * Z * list (part D dtype)) (ij : Z * Z) :=
  let '(b, counter, per, leftover, acc) := st in
  let counter := counter + 1 in
  if per <? counter then
    let acc := acc ++ [part_new m n dt (fst b) (snd b) per] in
    let '(leftover, per) :=
      if leftover =? 0 then (leftover, per)
      else (leftover - 1, if leftover - 1 =? 0 then per - 1 else per) in
    (ij, 1, per, leftover, acc)
  else (b, counter, per, leftover, acc).
(* lib/distance.c:519-577 sr_distances_part_create.  nelems / nparts and nelems % nparts are
   unsigned; nelems is never negative here and nparts = 0 is a division by zero. *)
Definition part_create (D : Type) {dtype} (m0 n : Z) (dt : dtype) (nparts : Z) : res (list (part D dtype)) :=
  do m <- (if n <=? m0 then chk (n - 1) else Ok m0);
  do _ <- assertb ((0 <? m) && (1 <? n) && (m <? n));
  do triangle_twice <- chk (m * (m - 1));
  do _ <- assertb (Z.rem triangle_twice 2 =? 0);
  do rect <- chk (m * (n - m));
  do nelems <- chk (Z.quot triangle_twice 2 + rect);
  do _ <- assertb (negb (nparts =? 0));
  let leftover := nelems mod nparts in
  let per := if leftover =? 0 then nelems / nparts else nelems / nparts + 1 in
  let '(b, counter, per, leftover, acc) :=
    fold_left (part_step m n dt) (loop_pairs m n) ((0, 1), 0, per, leftover, []) in
  do _ <- assertb (counter =? per);
  Ok (acc ++ [part_new m n dt (fst b) (snd b) counter]).

(* j++; if (j >= n) { i++; j = i + 1; }   (lib/distance.c:626-631 and 669-674) *)
Definition next_pair (n : Z) (ij : Z * Z) : Z * Z :=
  let '(i, j) := ij in if n <=? j + 1 then (i + 1, i + 2) else (i, j + 1).

(* lib/distance.c:616-632: the values computed by the loop of sr_distances_part_compute *)
Fixpoint compute_loop {T D} (m n : Z) (f : T -> T -> D) (threads : list T) (len : nat) (ij : Z * Z) : res (list D) :=
  match len with
  | O => Ok []
  | S k =>
    let '(i, j) := ij in
    do _ <- assertb (i <? j);
    do _ <- assertb ((i <? m) && (j <? n));
    do a <- load threads i;
    do b <- load threads j;
    do r <- compute_loop m n f threads k (next_pair n ij);
    Ok (f a b :: r)
  end.
(* lib/distance.c:606-635 sr_distances_part_compute; thread_list_checksum (579-604) reads the
   frame counts of the first n threads *)
Definition part_compute {T D dtype} (cmp : dtype -> T -> T -> D) (frame_count : T -> Z) (cksum : list Z -> Z)
    (threads : list T) (p : part D dtype) : res (part D dtype) :=
  do ds <- compute_loop (pt_m p) (pt_n p) (cmp (pt_type p)) threads (Z.to_nat (pt_len p)) (pt_m_begin p, pt_n_begin p);
  if (length threads <? Z.to_nat (pt_n p))%nat then UB else
  Ok (mk_part (pt_m p) (pt_n p) (pt_m_begin p) (pt_n_begin p) (pt_len p) (pt_type p)
        (cksum (map frame_count (firstn (Z.to_nat (pt_n p)) threads))) (Some ds)).

(* lib/distance.c:656-675: the inner loop of sr_distances_part_merge; Fail is goto error *)
Fixpoint merge_loop {D} (m n : Z) (vals : list D) (k : nat) (len : nat) (ij : Z * Z) (d : matrix D) : res (matrix D) :=
  match len with
  | O => Ok d
  | S len' =>
    let '(i, j) := ij in
    if (j <=? i) || (m <=? i) || (n <=? j) then Fail
    else
      match nth_error vals k with
      | None => UB
      | Some v => do d' <- write_cell d i j v; merge_loop m n vals (S k) len' (next_pair n ij) d'
      end
  end.
(* lib/distance.c:637-683 sr_distances_part_merge; Fail is the NULL result *)
Definition part_merge {D dtype} (parts : list (part D dtype)) : res (matrix D) :=
  match parts with
  | [] => Fail
  | first :: _ =>
    do d <- distances_new D (pt_m first) (pt_n first);
    fold_res (fun d it =>
      match pt_distances it with
      | None => Fail
      | Some vals =>
        if negb (pt_m it =? pt_m first) || negb (pt_n it =? pt_n first) ||
           negb (pt_checksum it =? pt_checksum first) then Fail
        else merge_loop (pt_m it) (pt_n it) vals 0 (Z.to_nat (pt_len it)) (pt_m_begin it, pt_n_begin it) d
      end) parts d
  end.
