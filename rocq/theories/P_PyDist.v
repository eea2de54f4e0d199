(** * Property C72: distances, their parts and dendrograms in Python. *)
From Verif Require Import Base DistMatrixModel DistMatrixSpec ClusterModel ClusterSpec ClusterProofs4 PyDistModel PyDistSpec PyDistProofs.
Open Scope Z_scope.

(** ** Distances(threads, m, type) *)
(** For any 2 to 46340 threads of one type, any int m from 1 on and any of the three distances the object has the size
    (min(m, n-1), n); get_distance(i, j) is 0 where i = j and the distance of the threads number min(i, j) and max(i, j)
    elsewhere; other indices raise ValueError; dup() gives an equal object. *)
Theorem C72_threads : forall T F ttype (cmp : Z -> T -> T -> F) zero threads m dt,
  is_int m -> 1 <= m -> 2 <= Z.of_nat (length threads) <= 46340 -> measure dt -> same_type ttype threads ->
  exists d, distances_of ttype cmp threads m dt = ret d /\ get_size d = (Z.min m (Z.of_nat (length threads) - 1), Z.of_nat (length threads)) /\
    py_distances_dup d = ret d /\
    (forall i j, within (Z.min m (Z.of_nat (length threads) - 1)) (Z.of_nat (length threads)) i j -> i <> j ->
      exists a b, nth_error threads (Z.to_nat (Z.min i j)) = Some a /\ nth_error threads (Z.to_nat (Z.max i j)) = Some b /\
        py_get_distance zero d i j = ret (cmp dt a b)) /\
    (forall i, within (Z.min m (Z.of_nat (length threads) - 1)) (Z.of_nat (length threads)) i i -> py_get_distance zero d i i = ret zero) /\
    (forall i j, is_int i -> is_int j -> ~ within (Z.min m (Z.of_nat (length threads) - 1)) (Z.of_nat (length threads)) i j ->
      py_get_distance zero d i j = raise ValueError).
Proof. intros T F. exact of_values. Qed.
(** Anything else raises: no m below 1, no fewer than two threads, no Jaro-Winkler or unknown distance, no mixture of types. *)
Theorem C72_threads_raises : forall T F ttype (cmp : Z -> T -> T -> F) threads m dt,
  (~ is_int m \/ ~ is_int dt -> distances_of ttype cmp threads m dt = raise OverflowError) /\
  (is_int m -> is_int dt -> m < 1 \/ Z.of_nat (length threads) < 2 \/ ~ measure dt -> distances_of ttype cmp threads m dt = raise ValueError) /\
  (is_int m -> 1 <= m -> 2 <= Z.of_nat (length threads) -> measure dt -> ~ same_type ttype threads ->
     distances_of ttype cmp threads m dt = raise TypeError).
Proof. intros T F. exact of_raises. Qed.
Example C72_threads_case : let cmp := fun dt a b => dt * 100 + a * 10 + b in
  exists d, distances_of (fun _ => 0%nat) cmp [1; 2; 3] 7 2 = ret d /\ get_size d = (2, 3) /\ py_get_distance 0 d 0 2 = ret 213 /\
    py_get_distance 0 d 1 0 = ret 212 /\ py_get_distance 0 d 1 1 = ret 0 /\ py_get_distance 0 d 2 0 = raise ValueError /\
    distances_of (fun _ => 0%nat) cmp [1; 2; 3] 0 2 = raise ValueError /\ distances_of (fun _ => 0%nat) cmp [1; 2; 3] 7 0 = raise ValueError /\
    distances_of (fun t => if t =? 2 then 1%nat else 0%nat) cmp [1; 2; 3] 7 2 = raise TypeError.
Proof. exists (mk_matrix 2 3 [Some 212; Some 213; None; Some 223]). repeat split. Qed.
(** get_distance(2, 0) is refused although the pair was computed and get_distance(0, 2) gives it. *)
Theorem C72_symmetric_refuted : exists d, distances_of (fun _ => 0%nat) (fun dt a b => dt * 100 + a * 10 + b) [1; 2; 3] 7 2 = ret d /\
  py_get_distance 0 d 0 2 = ret 213 /\ py_get_distance 0 d 2 0 = raise ValueError.
Proof. exists (mk_matrix 2 3 [Some 212; Some 213; None; Some 223]). repeat split. Qed.

(** ** Distances(m, n) and set_distance *)
(** After any sequence of set_distance calls, with any numbers, each call has raised exactly what it should, a refused call
    has changed nothing, and get_distance gives the last value set for the pair in either order. *)
Theorem C72_history : forall F (zero : F) m n (hist : list (Z * Z * F)), is_int m -> 1 <= m -> 2 <= n <= 46340 ->
  exists d0 d, distances_sized m n = ret d0 /\ get_size d0 = (Z.min m (n - 1), n) /\
    calls d0 hist = Ok (d, map (answer (Z.min m (n - 1)) n) hist) /\ get_size d = (Z.min m (n - 1), n) /\
    py_distances_dup d = ret d /\
    (forall i j, within (Z.min m (n - 1)) n i j ->
       py_get_distance zero d i j =
         if i =? j then ret zero
         else match last_set (accepted (Z.min m (n - 1)) n hist) i j with Some v => ret v | None => UB end) /\
    (forall i j, is_int i -> is_int j -> ~ within (Z.min m (n - 1)) n i j -> py_get_distance zero d i j = raise ValueError) /\
    (forall i j, ~ is_int i \/ ~ is_int j -> py_get_distance zero d i j = raise OverflowError).
Proof. intros F. exact sized_history. Qed.
Theorem C72_sized_raises : forall F m n,
  (~ is_int m \/ ~ is_int n -> @distances_sized F m n = raise OverflowError) /\
  (is_int m -> is_int n -> m < 1 \/ n < 2 -> @distances_sized F m n = raise ValueError).
Proof. intros F. exact sized_raises. Qed.
Example C72_history_case : exists d0 d, @distances_sized Z 2 4 = ret d0 /\
  calls d0 [(0, 1, 5); (3, 0, 6); (1, 0, 7); (1, 1, 8); (0, 4, 9); (2 ^ 40, 0, 9); (0, -1, 9); (1, 3, 4)] =
    Ok (d, [None; Some ValueError; None; None; Some ValueError; Some OverflowError; Some ValueError; None]) /\
  py_get_distance 0 d 0 1 = ret 7 /\ py_get_distance 0 d 1 0 = ret 7 /\ py_get_distance 0 d 1 3 = ret 4 /\ py_get_distance 0 d 1 1 = ret 0 /\
  py_get_distance 0 d 0 3 = UB.
Proof. exists (mk_matrix 2 4 [None; None; None; None; None; None]), (mk_matrix 2 4 [Some 7; None; None; None; None; Some 4]). repeat split. Qed.
(** A pair that was not set is uninitialised memory: get_distance gives whatever is there, and so does clustering. *)
Theorem C72_unset_refuted : exists d, @distances_sized Z 1 2 = ret d /\ py_get_distance 0 d 0 1 = UB /\
  py_cluster 0 Z.gtb Z.leb (fun a s b t => (a * s + b * t) / (s + t)) d = UB.
Proof. exists (mk_matrix 1 2 [None]). repeat split. Qed.
(** More than 46340 objects overflow the computation of the position. *)
Theorem C72_large_refuted : forall F m n, is_int m -> is_int n -> 1 <= m -> 46340 < n -> @distances_sized F m n = UB.
Proof. intros F. exact sized_large. Qed.

(** ** DistancesPart *)
(** The computation spread over processes gives what Distances gives.  For any threads, number of parts, m (0: all) and
    distance: create makes min(nparts, number of pairs) parts; each survives pickling, computing it from the threads
    succeeds, the result survives pickling; and merging objects that hold the results, each once and in any order,
    whatever they were linked to before, gives an object equal to Distances(threads, m, type). *)
Theorem C72_spread : forall T F ttype (cmp : Z -> T -> T -> F) fc ck (zero : F) threads m dt nparts,
  (forall l, 0 <= ck l < 2 ^ 32) -> is_int m -> 0 <= m -> 2 <= Z.of_nat (length threads) <= 46340 -> measure dt -> same_type ttype threads ->
  nparts mod 2 ^ 32 <> 0 ->
  let n := Z.of_nat (length threads) in
  let m' := if m =? 0 then n - 1 else m in
  exists ps cs d, @py_part_create F n nparts m dt = ret ps /\ Z.of_nat (length ps) = Z.min (nparts mod 2 ^ 32) (entries (Z.min m' (n - 1)) n) /\
    Forall pickles ps /\ Forall2 (fun p c => py_part_compute ttype cmp fc ck p threads = ret c) ps cs /\ Forall pickles cs /\
    distances_of ttype cmp threads m' dt = ret d /\
    forall st rs cs', Permutation cs cs' -> NoDup rs -> Forall2 (holds st) rs cs' -> merge_parts (map Some rs) st = ret d.
Proof. intros T F. exact spread. Qed.
(** When merge_parts returns, all parts had been computed and agreed in size and in the checksum of the threads. *)
Theorem C72_merge_agrees : forall F (st : pstore F) rs ps d, NoDup rs -> Forall2 (holds st) rs ps -> merge_parts (map Some rs) st = ret d ->
  Forall (fun p => pt_distances p <> None) ps /\
  forall p q, In p ps -> In q ps -> pt_m p = pt_m q /\ pt_n p = pt_n q /\ pt_checksum p = pt_checksum q.
Proof. intros F. exact merge_agrees. Qed.
(** What raises. *)
Theorem C72_merge_foreign : forall F items (st : pstore F), (forall r, In (Some r) items -> exists p, holds st r p) -> In None items ->
  merge_parts items st = raise TypeError.
Proof. intros F. exact merge_foreign. Qed.
Theorem C72_compute_raises : forall T F ttype (cmp : Z -> T -> T -> F) fc ck threads p,
  (~ same_type ttype threads -> py_part_compute ttype cmp fc ck p threads = raise TypeError) /\
  (same_type ttype threads -> Z.of_nat (length threads) <> pt_n p -> py_part_compute ttype cmp fc ck p threads = raise ValueError).
Proof. intros T F. exact compute_raises. Qed.
Theorem C72_create_raises : forall F n nparts m dt,
  (~ is_int n \/ ~ is_int m \/ ~ is_int dt -> @py_part_create F n nparts m dt = raise OverflowError) /\
  (is_int n -> is_int m -> is_int dt -> -2147483648 < n -> m < 0 \/ n < 2 \/ ~ measure dt -> @py_part_create F n nparts m dt = raise ValueError) /\
  (2 <= n <= 46340 -> is_int m -> 0 <= m -> measure dt -> nparts mod 2 ^ 32 = 0 -> @py_part_create F n nparts m dt = UB).
Proof. intros F. exact create_raises. Qed.
(** With m = 0 the smallest int overflows before n is checked. *)
Theorem C72_create_overflow_refuted : forall F nparts, @py_part_create F (-2147483648) nparts 0 1 = UB.
Proof. reflexivity. Qed.
Definition sample_part (mb nb len : Z) (ds : list Z) : Part Z := mk_part 2 3 mb nb len 1 9 (Some ds).
Example C72_spread_case : let cmp := fun dt a b => dt * 100 + a * 10 + b in
  @py_part_create Z 3 2 0 1 = ret [part_new 2 3 1 0 1 2; part_new 2 3 1 1 2 1] /\
  py_part_compute (fun _ => 0%nat) cmp (fun _ => 1) (fun _ => 9) (part_new 2 3 1 0 1 2) [1; 2; 3] = ret (sample_part 0 1 2 [112; 113]) /\
  py_part_compute (fun _ => 0%nat) cmp (fun _ => 1) (fun _ => 9) (part_new 2 3 1 0 1 2) [1; 2] = raise ValueError /\
  merge_parts [Some 0; Some 2]%nat [(sample_part 1 2 1 [123], Some 0%nat); (part_new 2 3 1 0 1 2, None); (sample_part 0 1 2 [112; 113], Some 0%nat)] =
    ret (mk_matrix 2 3 [Some 112; Some 113; None; Some 123]) /\
  merge_parts [Some 0; Some 1]%nat [(sample_part 1 2 1 [123], Some 0%nat); (part_new 2 3 1 0 1 2, None)] = raise RuntimeError.
Proof. repeat split. Qed.
(** A missing part goes unnoticed: the merged object has pairs that are uninitialised memory. *)
Theorem C72_missing_refuted : exists d, merge_parts [Some 0%nat] [(sample_part 1 2 1 [123], None)] = ret d /\ py_get_distance 0 d 0 1 = UB.
Proof. exists (mk_matrix 2 3 [None; None; None; Some 123]). repeat split. Qed.
(** An object listed twice drops the ones between: [a, b, a] merges as [a]. *)
Theorem C72_twice_refuted : exists d, merge_parts [Some 0; Some 1; Some 0]%nat [(sample_part 1 2 1 [123], None); (sample_part 0 1 2 [112; 113], None)] = ret d /\
  py_get_distance 0 d 0 1 = UB.
Proof. exists (mk_matrix 2 3 [None; None; None; Some 123]). repeat split. Qed.
(** The empty list returns NULL without an exception. *)
Theorem C72_empty_refuted : forall F (st : pstore F), merge_parts [] st = raise SystemError.
Proof. intros F. exact merge_empty. Qed.
(** The constructor writes past the end of the buffer when the list is longer than the length given. *)
Theorem C72_pickle_refuted : @part_from Z (Pickle 2 3 0 1 1 1 9 (Some [112; 113])) = UB.
Proof. reflexivity. Qed.

(** ** Dendrograms *)
(** Dendrogram(Distances(threads, m, type)) succeeds, however the distances compare; its objects are the numbers of the
    threads, each once. *)
Theorem C72_dendrogram : forall T F ttype (cmp : Z -> T -> T -> F) zero gt le avg threads m dt,
  is_int m -> 1 <= m -> 2 <= Z.of_nat (length threads) <= 46340 -> measure dt -> same_type ttype threads ->
  exists d g, distances_of ttype cmp threads m dt = ret d /\ py_cluster zero gt le avg d = ret g /\
    dendrogram_size g = Z.of_nat (length threads) /\ Z.of_nat (length (dg_levels g)) = Z.of_nat (length threads) - 1 /\
    Permutation (dg_order g) (map Z.of_nat (seq 0 (length threads))).
Proof. intros T F. exact threads_cluster. Qed.
(** get_object(i) and get_merge_level(i); the last two lines but one are wrong: there is no level n-1 or n, yet the
    check lets them through and memory behind the array is read. *)
Theorem C72_reads_refuted : forall F (g : @dendrogram F), 1 <= Z.of_nat (length (dg_order g)) <= 46340 ->
  Z.of_nat (length (dg_levels g)) = Z.of_nat (length (dg_order g)) - 1 ->
  let n := dendrogram_size g in
  (forall i, 0 <= i < n -> exists o, get_object g i = ret o /\ nth_error (dg_order g) (Z.to_nat i) = Some o) /\
  (forall i, is_int i -> i < 0 \/ n <= i -> get_object g i = raise ValueError) /\
  (forall i, 0 <= i < n - 1 -> exists v, get_merge_level g i = ret v /\ nth_error (dg_levels g) (Z.to_nat i) = Some v) /\
  (forall i, is_int i -> i < 0 \/ n < i -> get_merge_level g i = raise ValueError) /\
  get_merge_level g (n - 1) = UB /\ get_merge_level g n = UB /\
  (forall i, ~ is_int i -> get_object g i = raise OverflowError /\ get_merge_level g i = raise OverflowError).
Proof. intros F. exact dendrogram_reads. Qed.
(** cut(level, min_size): the maximal runs of objects whose levels are at most [level], the last first. *)
Theorem C72_cut : forall F (le : F -> F -> bool) g level min_size, (length (dg_levels g) + 1 = length (dg_order g))%nat -> is_int min_size ->
  exists cs rs, py_cut le g level min_size = ret cs /\
    (forall a b, In (a, b) rs <-> maximal_run le (dg_levels g) (length (dg_order g)) level a b /\ min_size <= Z.of_nat (b - a + 1)) /\
    NoDup rs /\ cs = rev (map (fun ab => slice (dg_order g) (fst ab) (snd ab)) rs).
Proof. intros F. exact cut_runs. Qed.
Example C72_dendrogram_case : let g := mk_dendrogram [4; 2; 0; 3; 1] [3; 9; 1; 5] in
  get_object g 0 = ret 4 /\ get_object g 5 = raise ValueError /\ get_merge_level g 3 = ret 5 /\ get_merge_level g 6 = raise ValueError /\
  py_cut Z.leb g 3 2 = ret [[0; 3]; [4; 2]] /\ py_cut Z.leb g 3 (2 ^ 31) = raise OverflowError.
Proof. repeat split. Qed.
Print Assumptions C72_threads.
Print Assumptions C72_threads_raises.
Print Assumptions C72_symmetric_refuted.
Print Assumptions C72_history.
Print Assumptions C72_sized_raises.
Print Assumptions C72_unset_refuted.
Print Assumptions C72_large_refuted.
Print Assumptions C72_spread.
Print Assumptions C72_merge_agrees.
Print Assumptions C72_merge_foreign.
Print Assumptions C72_compute_raises.
Print Assumptions C72_create_raises.
Print Assumptions C72_create_overflow_refuted.
Print Assumptions C72_missing_refuted.
Print Assumptions C72_twice_refuted.
Print Assumptions C72_empty_refuted.
Print Assumptions C72_pickle_refuted.
Print Assumptions C72_dendrogram.
Print Assumptions C72_reads_refuted.
Print Assumptions C72_cut.
