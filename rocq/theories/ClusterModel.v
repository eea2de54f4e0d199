(** * Model of clustering (lib/cluster.c).

    Floats are values of any type [D] with the comparisons and the average the code uses, so that
    the theorems about data movement hold whatever the distances are (NaN included). *)
From Coq Require Import QArith.
From Verif Require Import Base DistMatrixModel.
Open Scope Z_scope.

Section Cluster.
Context {D : Type} (zero : D).
(* [gt a b]: a > b; [le a b]: a <= b; [avg d0 s0 d1 s1] = (d0 * s0 + d1 * s1) / (s0 + s1) *)
Variables (gt le : D -> D -> bool) (avg : D -> Z -> D -> Z -> D).

(** The local variables of sr_distances_cluster_objects: struct cluster clusters[n] (a cluster is
    the list of its objects; cluster_clean makes it empty), cluster_distances and
    float merge_levels[n], whose elements are indexed by object and start uninitialised. *)
Record cstate := mk_cstate {
  s_clusters : list (list Z);
  s_distances : matrix D;
  s_levels : list (option D) }.

Definition size (c : list Z) : Z := Z.of_nat (length c).

(* lib/cluster.c:146-160: the inner loop over j; the accumulator is None as long as [first] is
   true, otherwise (min_dist, c1, c2) *)
Definition find_row (cl : list (list Z)) (d : matrix D) (n i : Z) (acc : option (D * Z * Z)) : res (option (D * Z * Z)) :=
  fold_res (fun acc j =>
    do cj <- load cl j;
    if size cj =? 0 then Ok acc
    else
      do dist <- get_distance zero d i j;
      match acc with
      | None => Ok (Some (dist, i, j))
      | Some (min_dist, _, _) => Ok (if gt min_dist dist then Some (dist, i, j) else acc)
      end) (zrange (i + 1) n) acc.
(* lib/cluster.c:141-163 *)
Definition find_closest (cl : list (list Z)) (d : matrix D) (m n : Z) : res (D * Z * Z) :=
  do r <- fold_res (fun acc i =>
            do ci <- load cl i;
            if size ci =? 0 then Ok acc else find_row cl d n i acc) (zrange 0 m) None;
  match r with
  | None => UB
  | Some (min_dist, c1, c2) => do _ <- assertb (c1 <? c2); Ok (min_dist, c1, c2)
  end.

(* lib/cluster.c:165-196: distances of the new cluster to the others *)
Definition update_distances (cl : list (list Z)) (d : matrix D) (m n c1 c2 : Z) : res (matrix D) :=
  do k1 <- load cl c1;
  do k2 <- load cl c2;
  fold_res (fun d i =>
    do ci <- load cl i;
    if (size ci =? 0) || (i =? c1) || (i =? c2) then Ok d
    else if negb ((c2 <? m) || (i <? m)) then Ok d
    else
      do d0 <- get_distance zero d i c1;
      do d1 <- get_distance zero d i c2;
      set_distance d i c1 (avg d0 (size k1) d1 (size k2))) (zrange 0 n) d.

(* lib/cluster.c:198-226: (reverse1, reverse2) *)
Definition directions (distances : matrix D) (m n : Z) (k1 k2 : list Z) : res (bool * bool) :=
  if m + 1 =? n then
    do f1 <- load k1 0;
    do l1 <- load k1 (size k1 - 1);
    do f2 <- load k2 0;
    do l2 <- load k2 (size k2 - 1);
    do d0 <- get_distance zero distances f1 f2;
    do d1 <- get_distance zero distances l1 f2;
    do d2 <- get_distance zero distances f1 l2;
    do d3 <- get_distance zero distances l1 l2;
    Ok (if le d1 d0 && le d1 d2 && le d1 d3 then (false, false)
        else if le d0 d1 && le d0 d2 && le d0 d3 then (true, false)
        else if le d2 d0 && le d2 d1 && le d2 d3 then (true, true)
        else (false, true))
  else Ok (false, false).

(* lib/cluster.c:232-234 (and 239-241): shift the levels of a cluster that is reversed.  Copying
   an uninitialised level does not use its value. *)
Definition shift_levels (c : list Z) (levels : list (option D)) : res (list (option D)) :=
  fold_res (fun levels i =>
    do a <- load c (i - 1);
    do b <- load c i;
    do v <- load levels b;
    store levels a v) (zrange 1 (size c)) levels.
(* lib/cluster.c:95-105 cluster_reverse swaps the objects from both ends: [rev] *)
Definition reverse_cluster (r : bool) (c : list Z) (levels : list (option D)) : res (list Z * list (option D)) :=
  if r then do levels <- shift_levels c levels; Ok (rev c, levels) else Ok (c, levels).

(* lib/cluster.c:130-251: one round.  The reversed clusters are stored in place before merging
   (86-93 cluster_merge appends the objects of c2 to c1, 67-72 cluster_clean empties c2). *)
Definition merge_once (distances : matrix D) (s : cstate) : res cstate :=
  let m := mx_m distances in
  let n := mx_n distances in
  do fc <- find_closest (s_clusters s) (s_distances s) m n;
  let '(min_dist, c1, c2) := fc in
  do d <- update_distances (s_clusters s) (s_distances s) m n c1 c2;
  do k1 <- load (s_clusters s) c1;
  do k2 <- load (s_clusters s) c2;
  do dir <- directions distances m n k1 k2;
  do r1 <- reverse_cluster (fst dir) k1 (s_levels s);
  do r2 <- reverse_cluster (snd dir) k2 (snd r1);
  do f2 <- load (fst r2) 0;
  do levels <- store (snd r2) f2 (Some min_dist);
  do cl <- store (s_clusters s) c1 (fst r1 ++ fst r2);
  do cl <- store cl c2 [];
  Ok (mk_cstate cl d levels).
Fixpoint merge_times (distances : matrix D) (k : nat) (s : cstate) : res cstate :=
  match k with
  | O => Ok s
  | S k' => do s <- merge_once distances s; merge_times distances k' s
  end.

(* lib/cluster.h:40-46 sr_dendrogram; size is the length of order *)
Record dendrogram := mk_dendrogram { dg_order : list Z; dg_levels : list D }.

(* lib/cluster.c:107-265 sr_distances_cluster_objects; 33 assert(size > 1) of sr_dendrogram_new *)
Definition cluster_objects (distances : matrix D) : res dendrogram :=
  let n := mx_n distances in
  do _ <- assertb (negb (n =? 0));
  do d <- distances_dup distances;
  let s := mk_cstate (map (fun i => [i]) (zrange 0 n)) d (repeat None (Z.to_nat n)) in
  do s <- merge_times distances (Z.to_nat (n - 1)) s;
  do _ <- assertb (1 <? n);
  do c0 <- load (s_clusters s) 0;
  do order <- fold_res (fun acc i => do o <- load c0 i; Ok (acc ++ [o])) (zrange 0 n) [];
  do levels <- fold_res (fun acc i =>
                 do o <- load c0 i;
                 do v <- load (s_levels s) o;
                 match v with Some v => Ok (acc ++ [v]) | None => UB end) (zrange 1 n) [];
  Ok (mk_dendrogram order levels).

(* lib/cluster.c:300-310: the objects first..i of the order, saved in front of the list *)
Definition save_cluster (g : dendrogram) (first i min_size : Z) (acc : list (list Z)) : res (list (list Z)) :=
  if min_size <=? i - first + 1 then
    do c <- fold_res (fun c j => do o <- load (dg_order g) j; Ok (c ++ [o])) (zrange first (i + 1)) [];
    Ok (c :: acc)
  else Ok acc.
(* lib/cluster.c:288-315 sr_dendrogram_cut; the state is (first, cluster) *)
Definition dendrogram_cut (g : dendrogram) (level : D) (min_size : Z) : res (list (list Z)) :=
  let n := size (dg_order g) in
  do r <- fold_res (fun st i =>
            let '(first, acc) := st in
            do inside <- (if i + 1 <? n then do v <- load (dg_levels g) i; Ok (le v level) else Ok false);
            if inside then Ok (first, acc)
            else do acc <- save_cluster g first i min_size acc; Ok (i + 1, acc)) (zrange 0 n) (0, []);
  Ok (snd r).
End Cluster.
Arguments mk_cstate {D}. Arguments s_clusters {D}. Arguments s_distances {D}. Arguments s_levels {D}.
Arguments mk_dendrogram {D}. Arguments dg_order {D}. Arguments dg_levels {D}.

(** The three operations with exact arithmetic instead of float. *)
(* lib/cluster.c:153 (>), 211-222 (<=) *)
Definition qle (a b : Q) : bool := Qle_bool a b.
Definition qgt (a b : Q) : bool := negb (Qle_bool a b).
(* lib/cluster.c:191 *)
Definition qavg (d0 : Q) (s0 : Z) (d1 : Q) (s1 : Z) : Q := ((d0 * inject_Z s0 + d1 * inject_Z s1) / inject_Z (s0 + s1))%Q.
