(** * Properties C14-C16: distance matrix, distance parts. *)
From Verif Require Import Base DistMatrixModel DistMatrixSpec DistMatrixProofs DistPartProofs.
Open Scope Z_scope.

(** C14.  Any history of in-range assignments to a fresh matrix succeeds (no out-of-bounds access,
    no overflow, no failed assertion), and afterwards every pair reads the value last assigned to
    it in either order, reading a pair never assigned is reading uninitialised memory, and
    duplication gives a matrix with the same contents. *)
Theorem C14_history : forall D m n (hist : list (Z * Z * D)), 0 < m -> 1 < n <= 46340 ->
  Forall (fun s => in_range (Z.min m (n - 1)) n (fst (fst s)) (snd (fst s))) hist ->
  exists d0 d, distances_new D m n = Ok d0 /\
    fold_res (fun d s => set_distance d (fst (fst s)) (snd (fst s)) (snd s)) hist d0 = Ok d /\
    (forall z i j, i <> j -> get_distance z d i j = match last_set hist i j with Some v => Ok v | None => UB end) /\
    distances_dup d = Ok d.
Proof.
  intros D m n hist Hm Hn F. destruct (history_ok m n hist Hm Hn F) as (d0 & d & H1 & H2 & H3 & _ & _ & H4).
  exists d0, d. split; [exact H1|]. split; [exact H2|]. split; [exact H4|]. exact (dup_eq d H3).
Qed.
Theorem C14_diagonal : forall D (zero : D) d i v,
  get_distance zero d i i = Ok zero /\ set_distance d i i v = Ok d.
Proof. intros. split; [exact (get_diag zero d i) | exact (set_diag d i v)]. Qed.
Theorem C14_symmetric : forall D (zero : D) d i j v,
  get_distance zero d i j = get_distance zero d j i /\ set_distance d i j v = set_distance d j i v.
Proof. intros. split; [exact (get_sym zero d i j) | exact (set_sym d i j v)]. Qed.
(** Pairs outside the matrix are refused by the assertion, never read or written. *)
Theorem C14_out_of_range : forall D (zero : D) d i j v, i <> j -> ~ in_range (mx_m d) (mx_n d) i j ->
  get_distance zero d i j = UB /\ set_distance d i j v = UB.
Proof. intros D z d i j v H1 H2. split; [exact (get_out z d i j H1 H2) | exact (set_out d i j v H1 H2)]. Qed.
(** The size limit of the statements above is exact: a matrix of more columns overflows [int]. *)
Theorem C14_large_matrix_refuted : forall D m n, 46340 < n -> distances_new D m n = UB.
Proof. exact new_large. Qed.
Example C14_case : exists d, distances_new nat 2 4 = Ok d /\ Z.of_nat (length (mx_cells d)) = 6 /\
  fold_res (fun d s => set_distance d (fst (fst s)) (snd (fst s)) (snd s)) [((1, 3), 7%nat); ((3, 0), 8%nat); ((3, 1), 9%nat)] d
    = Ok (mk_matrix 2 4 [None; None; Some 8%nat; None; None; Some 9%nat]) /\
  get_distance 0%nat (mk_matrix 2 4 [None; None; Some 8%nat; None; None; Some 9%nat]) 1 3 = Ok 9%nat.
Proof. exists (mk_matrix 2 4 [None; None; None; None; None; None]). split; [reflexivity|]. split; [reflexivity|]. split; reflexivity. Qed.

(** C15.  Parts are consecutive pieces of the row-major list of all pairs, of the expected number,
    balanced and non-empty. *)
Theorem C15_parts_cover : forall D dtype m n (dt : dtype) nparts, 0 < m -> 1 < n <= 46340 -> 0 < nparts ->
  let m' := Z.min m (n - 1) in let e := entries m' n in
  exists ps chunks, part_create D m n dt nparts = Ok ps /\
    all_pairs m' n (concat chunks) /\
    Forall2 (fun p c => pt_m p = m' /\ pt_n p = n /\ pt_type p = dt /\ pt_distances p = None /\
               hd_error c = Some (pt_m_begin p, pt_n_begin p) /\ pt_len p = Z.of_nat (length c)) ps chunks /\
    map (@List.length (Z * Z)) chunks =
      part_sizes (Z.to_nat (Z.min nparts e)) (Z.to_nat (e mod nparts)) (Z.to_nat (e / nparts)).
Proof.
  intros D dtype m n dt nparts Hm Hn Hp m' e. destruct (part_create_ok D m n dt nparts Hm Hn Hp) as (ps & cs & H1 & H2 & H3 & H4).
  exists ps, cs. split; [exact H1|]. split; [rewrite H2; exact (loop_pairs_all m' n)|]. split; [|exact H4].
  eapply F2_impl; [|exact H3]. intros p c [E Hd]. rewrite E. cbn. repeat split. rewrite Hd. reflexivity.
Qed.
(** No pair occurs twice, the number of parts is the smaller of the request and the number of
    pairs, lengths differ by at most one and no part is empty. *)
Theorem C15_balanced : forall e nparts, 0 < e -> 0 < nparts ->
  let s := part_sizes (Z.to_nat (Z.min nparts e)) (Z.to_nat (e mod nparts)) (Z.to_nat (e / nparts)) in
  Z.of_nat (length s) = Z.min nparts e /\
  (forall a b, In a s -> In b s -> (a <= S b)%nat) /\ (forall a, In a s -> (0 < a)%nat).
Proof. exact sizes_balanced. Qed.
Theorem C15_pairs_once : forall m n l, all_pairs m n l -> NoDup l /\ forall l', all_pairs m n l' -> l' = l.
Proof. exact pairs_once. Qed.
Theorem C15_no_parts : forall D dtype m n (dt : dtype), 0 < m -> 1 < n <= 46340 -> part_create D m n dt 0 = UB.
Proof. exact part_create_zero. Qed.
Example C15_case : part_create nat 9 4 tt 4 =
  Ok [part_new 3 4 tt 0 1 2; part_new 3 4 tt 0 3 2; part_new 3 4 tt 1 3 1; part_new 3 4 tt 2 3 1].
Proof. vm_compute. reflexivity. Qed.

(** C16.  Parts computed one by one and merged in any order give exactly the matrix (or error) of
    the direct comparison. *)
Theorem C16_merge_is_compare : forall T D dtype (ttype : T -> nat) (cmp : dtype -> T -> T -> D) frame_count cksum threads m n dt nparts,
  0 < m -> 1 < n <= 46340 -> 0 < nparts -> n <= Z.of_nat (length threads) ->
  (forall a b, In a (firstn (Z.to_nat n) threads) -> In b (firstn (Z.to_nat n) threads) -> ttype a = ttype b) ->
  exists ps cs, part_create D m n dt nparts = Ok ps /\
    Forall2 (fun p c => part_compute cmp frame_count cksum threads p = Ok c) ps cs /\
    forall cs', Permutation cs cs' -> part_merge cs' = threads_compare ttype cmp threads m n dt.
Proof. exact @parts_merge_ok. Qed.
(** What the direct comparison returns: for every pair the distance of the two threads, the one
    with the smaller index first. *)
Theorem C16_compare : forall T D dtype (ttype : T -> nat) (cmp : dtype -> T -> T -> D) threads x m n dt,
  0 < m -> 1 < n <= 46340 -> n <= Z.of_nat (length threads) ->
  (forall a b, In a (firstn (Z.to_nat n) threads) -> In b (firstn (Z.to_nat n) threads) -> ttype a = ttype b) ->
  exists d, threads_compare ttype cmp threads m n dt = Ok d /\ mx_m d = Z.min m (n - 1) /\ mx_n d = n /\
    forall z i j, in_range (Z.min m (n - 1)) n i j ->
      get_distance z d i j = Ok (cmp dt (nth (Z.to_nat (Z.min i j)) threads x) (nth (Z.to_nat (Z.max i j)) threads x)).
Proof.
  intros T D dtype ttype cmp threads x m n dt H1 H2 H3 H4. destruct (compare_ok ttype cmp threads x m n dt H1 H2 H3 H4) as (d & A & _ & B & C & E).
  exists d. auto.
Qed.
(** A merge that succeeds had only parts of the same size and checksum, all of them computed. *)
Theorem C16_merge_checks : forall D dtype (p0 : part D dtype) ps d, part_merge (p0 :: ps) = Ok d ->
  Forall (fun p => pt_m p = pt_m p0 /\ pt_n p = pt_n p0 /\ pt_checksum p = pt_checksum p0 /\ pt_distances p <> None) (p0 :: ps).
Proof. exact @merge_checks. Qed.
(** Merging does not notice a missing part: the merge succeeds and leaves the pair unset. *)
Theorem C16_missing_part_refuted : exists (p1 p2 : part Z unit) d,
  part_create Z 1 3 tt 2 = Ok [part_new 1 3 tt 0 1 1; part_new 1 3 tt 0 2 1] /\
  part_compute (fun _ a b => a + b) (fun _ => 1) (fun _ => 0) [10; 20; 30] (part_new 1 3 tt 0 1 1) = Ok p1 /\
  part_compute (fun _ a b => a + b) (fun _ => 1) (fun _ => 0) [10; 20; 30] (part_new 1 3 tt 0 2 1) = Ok p2 /\
  part_merge [p2] = Ok d /\ get_distance 0 d 0 1 = UB /\ get_distance 0 d 0 2 = Ok 40.
Proof. do 3 eexists. repeat split. Qed.
Example C16_case : exists p1 p2 p3,
  part_create Z 5 4 tt 3 = Ok [part_new 3 4 tt 0 1 2; part_new 3 4 tt 0 3 2; part_new 3 4 tt 1 3 2] /\
  part_compute (fun _ a b => b - a) (fun _ => 1) (fun _ => 5) [10; 20; 31; 44] (part_new 3 4 tt 0 1 2) = Ok p1 /\
  part_compute (fun _ a b => b - a) (fun _ => 1) (fun _ => 5) [10; 20; 31; 44] (part_new 3 4 tt 0 3 2) = Ok p2 /\
  part_compute (fun _ a b => b - a) (fun _ => 1) (fun _ => 5) [10; 20; 31; 44] (part_new 3 4 tt 1 3 2) = Ok p3 /\
  part_merge [p3; p1; p2] = Ok (mk_matrix 3 4 [Some 10; Some 21; Some 34; None; Some 11; Some 24; None; Some 13]).
Proof. do 3 eexists. repeat split. Qed.
Print Assumptions C14_history.
Print Assumptions C14_diagonal.
Print Assumptions C14_symmetric.
Print Assumptions C14_out_of_range.
Print Assumptions C14_large_matrix_refuted.
Print Assumptions C15_parts_cover.
Print Assumptions C15_balanced.
Print Assumptions C15_pairs_once.
Print Assumptions C15_no_parts.
Print Assumptions C16_merge_is_compare.
Print Assumptions C16_compare.
Print Assumptions C16_merge_checks.
Print Assumptions C16_missing_part_refuted.
