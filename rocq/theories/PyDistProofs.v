(** * Proofs about the distances of a Python program: C72. *)
From Coq Require Import Sorting.Sorted.
From Verif Require Import Base DistMatrixModel DistMatrixSpec DistMatrixProofs DistPartProofs ClusterModel ClusterSpec ClusterProofs ClusterProofs2 ClusterProofs4 PyDistModel PyDistSpec.
Open Scope Z_scope.

Lemma arg_int z : is_int z -> arg_i z = ret z.
Proof. unfold is_int, arg_i, int_max. intros H. replace (_ && _) with true by lia. reflexivity. Qed.
Lemma arg_not_int z : ~ is_int z -> arg_i z = raise OverflowError.
Proof. unfold is_int, arg_i, int_max. intros H. replace (_ && _) with false by lia. reflexivity. Qed.
Lemma is_int_dec z : is_int z \/ ~ is_int z.
Proof. unfold is_int. lia. Qed.
Lemma isintb_iff z : isintb z = true <-> is_int z.
Proof. unfold isintb, is_int. lia. Qed.
Lemma withinb_iff m n i j : withinb m n i j = true <-> within m n i j.
Proof. unfold withinb, within. lia. Qed.
Lemma validate_ok m n dt : 1 <= m -> 2 <= n -> measure dt -> validate m n dt = ret tt.
Proof.
  unfold validate, measure, DISTANCE_NUM, JARO_WINKLER. intros Hm Hn H. replace ((m <? 1) || (n <? 2)) with false by lia.
  replace ((dt <? 0) || (4 <=? dt)) with false by lia. replace (dt =? 0) with false by lia. reflexivity.
Qed.
Lemma validate_bad m n dt : m < 1 \/ n < 2 \/ ~ measure dt -> validate m n dt = raise ValueError.
Proof.
  unfold validate, measure, DISTANCE_NUM, JARO_WINKLER. intros H. destruct ((m <? 1) || (n <? 2)) eqn:E1; [reflexivity|].
  destruct ((dt <? 0) || (4 <=? dt)) eqn:E2; [reflexivity|]. destruct (dt =? 0) eqn:E3; [reflexivity|]. lia.
Qed.
Lemma prepare_ok {T} (ttype : T -> nat) threads : same_type ttype threads -> prepare ttype threads = ret tt.
Proof.
  intros S. destruct threads as [|t r]; [reflexivity|]. cbn. replace (forallb _ r) with true; [reflexivity|]. symmetry.
  apply forallb_forall. intros u I. apply Nat.eqb_eq. apply S; [now left | now right].
Qed.
Lemma prepare_bad {T} (ttype : T -> nat) threads : ~ same_type ttype threads -> prepare ttype threads = raise TypeError.
Proof.
  intros S. destruct threads as [|t r]; [exfalso; apply S; intros a b []|]. cbn. destruct (forallb _ r) eqn:E; [|reflexivity].
  exfalso. apply S. rewrite forallb_forall in E.
  assert (H : forall u, In u (t :: r) -> ttype u = ttype t).
  { intros u [<-|I]; [reflexivity|]. symmetry. apply Nat.eqb_eq. apply E, I. }
  intros a b Ia Ib. rewrite (H a Ia), (H b Ib). reflexivity.
Qed.

(** ** Reading and writing *)
Lemma within_range m n i j : m < n -> within m n i j -> i <> j -> in_range m n i j.
Proof. unfold within, in_range. lia. Qed.
Lemma get_raises {F} (zero : F) d i j : (~ is_int i \/ ~ is_int j -> py_get_distance zero d i j = raise OverflowError) /\
  (is_int i -> is_int j -> ~ within (mx_m d) (mx_n d) i j -> py_get_distance zero d i j = raise ValueError).
Proof.
  unfold py_get_distance. split.
  - intros [H|H]; [rewrite (arg_not_int i H); reflexivity|]. destruct (is_int_dec i) as [Hi|Hi]; [rewrite (arg_int i Hi)|rewrite (arg_not_int i Hi); reflexivity].
    cbn [andthen ret bind]. rewrite (arg_not_int j H). reflexivity.
  - intros Hi Hj N. rewrite (arg_int i Hi), (arg_int j Hj). cbn [andthen ret bind].
    unfold within in N. destruct (_ || _) eqn:E; [reflexivity|]. exfalso. apply N. lia.
Qed.
Lemma get_within {F} (zero : F) d i j : is_int i -> is_int j -> within (mx_m d) (mx_n d) i j ->
  py_get_distance zero d i j = do f <- get_distance zero d i j; ret f.
Proof.
  intros Hi Hj N. unfold py_get_distance. rewrite (arg_int i Hi), (arg_int j Hj). cbn [andthen ret bind].
  unfold within in N. replace (_ || _) with false by lia. reflexivity.
Qed.
Lemma set_cases {F} (d : matrix F) i j f : py_set_distance d i j f =
  match answer (mx_m d) (mx_n d) (i, j, f) with
  | Some e => raise e
  | None => do d <- set_distance d i j f; ret d
  end.
Proof.
  unfold py_set_distance, answer. cbn [fst snd].
  destruct (is_int_dec i) as [Hi|Hi].
  2: { rewrite (arg_not_int i Hi). replace (isintb i) with false by (symmetry; apply not_true_iff_false; rewrite isintb_iff; exact Hi). reflexivity. }
  rewrite (arg_int i Hi), (proj2 (isintb_iff i) Hi). cbn [andthen ret bind andb].
  destruct (is_int_dec j) as [Hj|Hj].
  2: { rewrite (arg_not_int j Hj). replace (isintb j) with false by (symmetry; apply not_true_iff_false; rewrite isintb_iff; exact Hj). reflexivity. }
  rewrite (arg_int j Hj), (proj2 (isintb_iff j) Hj). cbn [andthen ret bind].
  destruct (withinb _ _ i j) eqn:W.
  - apply withinb_iff in W. unfold within in W. replace (_ || _) with false by lia. reflexivity.
  - apply not_true_iff_false in W. rewrite withinb_iff in W. unfold within in W. replace (_ || _) with true by lia. reflexivity.
Qed.
Lemma wf_int {F} (d : matrix F) : wf d -> 0 < mx_m d < mx_n d /\ mx_n d <= 46340.
Proof. intros (H1 & H2 & _). unfold max_n in H2. lia. Qed.
Lemma accepted_in_range m n {F} (hist : list (Z * Z * F)) : m < n -> Forall (fun s => in_range m n (fst (fst s)) (snd (fst s))) (accepted m n hist).
Proof.
  intros MN. apply Forall_forall. intros s I. apply filter_In in I as [_ I]. apply andb_true_iff in I as [I1 I2].
  apply withinb_iff in I1. apply within_range; [exact MN|exact I1|]. apply negb_true_iff, Z.eqb_neq in I2. exact I2.
Qed.
Lemma calls_fold {F} (hist : list (Z * Z * F)) : forall (d : matrix F), wf d ->
  exists d', fold_res (fun d s => set_distance d (fst (fst s)) (snd (fst s)) (snd s)) (accepted (mx_m d) (mx_n d) hist) d = Ok d' /\
    calls d hist = Ok (d', map (answer (mx_m d) (mx_n d)) hist).
Proof.
  induction hist as [|[[i j] f] hist IH]; intros d W; [exists d; split; reflexivity|]. cbn [calls map].
  rewrite set_cases. unfold accepted. cbn [filter fst snd]. fold (accepted (mx_m d) (mx_n d) hist).
  pose proof (wf_int d W) as WI.
  destruct (answer (mx_m d) (mx_n d) (i, j, f)) as [e|] eqn:A.
  - cbn [raise]. unfold answer in A. cbn [fst snd] in A. destruct (withinb _ _ i j) eqn:E; [exfalso|].
    + apply withinb_iff in E. unfold within in E. rewrite !(proj2 (isintb_iff _)) in A by (unfold is_int; lia). discriminate.
    + cbn [andb]. destruct (IH d W) as (d' & E1 & E2). exists d'. rewrite E2. cbn [bind raise fst snd]. split; [exact E1|reflexivity].
  - unfold answer in A. cbn [fst snd] in A. destruct (_ && _) in A; [|discriminate]. destruct (withinb _ _ i j) eqn:E; [|discriminate].
    apply withinb_iff in E. destruct (Z.eq_dec i j) as [<-|N].
    + rewrite set_diag. cbn [bind ret]. rewrite Z.eqb_refl. cbn [negb andb]. destruct (IH d W) as (d' & E1 & E2). exists d'. rewrite E2. cbn [bind fst snd]. split; [exact E1|reflexivity].
    + destruct (set_ok d i j f W (within_range _ _ _ _ (proj2 (proj1 WI)) E N)) as (d1 & Es & W1 & Em & En & _). rewrite Es. cbn [bind ret].
      replace (i =? j) with false by lia. cbn [negb andb fold_res fst snd]. rewrite Es. cbn [bind].
      destruct (IH d1 W1) as (d' & E1 & E2). rewrite Em, En in E1, E2. exists d'. rewrite E2. cbn [bind fst snd]. split; [exact E1|reflexivity].
Qed.
Lemma last_set_diag {F} m n (hist : list (Z * Z * F)) i : last_set (accepted m n hist) i i = None.
Proof.
  induction hist as [|[[a b] v] hist IH]; [reflexivity|]. unfold accepted. cbn [filter fst snd]. fold (accepted m n hist).
  destruct (_ && _) eqn:E; [|exact IH]. cbn [last_set]. rewrite IH. destruct (same_pairb i i a b) eqn:S; [|reflexivity].
  apply andb_true_iff in E as [_ E]. unfold same_pairb in S. lia.
Qed.
(** An object made with Distances(m, n), after any calls. *)
Lemma sized_history {F} (zero : F) m n (hist : list (Z * Z * F)) : is_int m -> 1 <= m -> 2 <= n <= 46340 ->
  exists d0 d, distances_sized m n = ret d0 /\ get_size d0 = (Z.min m (n - 1), n) /\
    calls d0 hist = Ok (d, map (answer (Z.min m (n - 1)) n) hist) /\ get_size d = (Z.min m (n - 1), n) /\
    py_distances_dup d = ret d /\
    (forall i j, within (Z.min m (n - 1)) n i j ->
       py_get_distance zero d i j =
         if i =? j then ret zero
         else match last_set (accepted (Z.min m (n - 1)) n hist) i j with Some v => ret v | None => UB end) /\
    (forall i j, is_int i -> is_int j -> ~ within (Z.min m (n - 1)) n i j -> py_get_distance zero d i j = raise ValueError) /\
    (forall i j, ~ is_int i \/ ~ is_int j -> py_get_distance zero d i j = raise OverflowError).
Proof.
  intros Im Hm Hn. destruct (history_ok m n (accepted (Z.min m (n - 1)) n hist) ltac:(lia) ltac:(unfold max_n; lia) (accepted_in_range (Z.min m (n - 1)) n hist ltac:(lia)))
    as (d0 & d & E0 & E & W & Em & En & G).
  destruct (new_ok F m n ltac:(lia) ltac:(unfold max_n; lia)) as (d0' & E0' & W0 & Em0 & En0 & _). rewrite E0 in E0'. injection E0' as <-.
  destruct (calls_fold hist d0 W0) as (d' & E1 & E2). rewrite Em0, En0 in E1, E2. rewrite E in E1. injection E1 as <-.
  exists d0, d. split.
  { unfold distances_sized. rewrite (arg_int m Im), (arg_int n) by (unfold is_int; lia). cbn [andthen ret bind].
    replace ((m <? 1) || (n <? 2)) with false by lia. rewrite E0. reflexivity. }
  split; [unfold get_size; congruence|]. split; [exact E2|]. split; [unfold get_size; congruence|].
  split; [unfold py_distances_dup; rewrite (dup_eq d W); reflexivity|].
  split; [|split].
  - intros i j Wi. pose proof Wi as [H1 H2]. rewrite get_within; [|unfold is_int; lia|unfold is_int; lia|rewrite Em, En; exact Wi].
    destruct (i =? j) eqn:C; [apply Z.eqb_eq in C; subst; rewrite get_diag; reflexivity|]. apply Z.eqb_neq in C. rewrite (G zero i j C).
    destruct (last_set _ i j); reflexivity.
  - intros i j Hi Hj N. apply get_raises; [exact Hi|exact Hj|rewrite Em, En; exact N].
  - intros i j H. apply get_raises, H.
Qed.
Lemma sized_raises {F} m n : (~ is_int m \/ ~ is_int n -> @distances_sized F m n = raise OverflowError) /\
  (is_int m -> is_int n -> m < 1 \/ n < 2 -> @distances_sized F m n = raise ValueError).
Proof.
  unfold distances_sized. split.
  - intros [H|H]; [rewrite (arg_not_int m H); reflexivity|]. destruct (is_int_dec m) as [Hi|Hi]; [rewrite (arg_int m Hi)|rewrite (arg_not_int m Hi); reflexivity].
    cbn [andthen ret bind]. rewrite (arg_not_int n H). reflexivity.
  - intros Hi Hj N. rewrite (arg_int m Hi), (arg_int n Hj). cbn [andthen ret bind]. replace (_ || _) with true by lia. reflexivity.
Qed.
Lemma sized_large {F} m n : is_int m -> is_int n -> 1 <= m -> 46340 < n -> @distances_sized F m n = UB.
Proof.
  intros Im In Hm Hn. unfold distances_sized. rewrite (arg_int m Im), (arg_int n In). cbn [andthen ret bind].
  replace (_ || _) with false by lia. rewrite new_large by (unfold max_n; lia). reflexivity.
Qed.

(** ** Distances of threads *)
Section Threads.
Context {T F : Type} (ttype : T -> nat) (cmp : Z -> T -> T -> F) (fc : T -> Z) (ck : list Z -> Z) (zero : F).
Lemma of_raises threads m dt :
  (~ is_int m \/ ~ is_int dt -> distances_of ttype cmp threads m dt = raise OverflowError) /\
  (is_int m -> is_int dt -> m < 1 \/ Z.of_nat (length threads) < 2 \/ ~ measure dt -> distances_of ttype cmp threads m dt = raise ValueError) /\
  (is_int m -> 1 <= m -> 2 <= Z.of_nat (length threads) -> measure dt -> ~ same_type ttype threads ->
     distances_of ttype cmp threads m dt = raise TypeError).
Proof.
  unfold distances_of. split; [|split].
  - intros [H|H]; [rewrite (arg_not_int m H); reflexivity|]. destruct (is_int_dec m) as [Hi|Hi]; [rewrite (arg_int m Hi)|rewrite (arg_not_int m Hi); reflexivity].
    cbn [andthen ret bind]. rewrite (arg_not_int dt H). reflexivity.
  - intros Hi Hj H. rewrite (arg_int m Hi), (arg_int dt Hj). cbn [andthen ret bind]. rewrite validate_bad by exact H. reflexivity.
  - intros Hi Hm Hn Hdt S. rewrite (arg_int m Hi), (arg_int dt) by (unfold is_int, measure in *; lia). cbn [andthen ret bind].
    rewrite validate_ok by assumption. cbn [andthen ret bind]. rewrite prepare_bad by exact S. reflexivity.
Qed.
Lemma of_eq threads m dt : is_int m -> 1 <= m -> 2 <= Z.of_nat (length threads) -> measure dt -> same_type ttype threads ->
  distances_of ttype cmp threads m dt = do d <- threads_compare ttype cmp threads m (Z.of_nat (length threads)) dt; ret d.
Proof.
  intros Hi Hm Hn Hdt S. unfold distances_of. rewrite (arg_int m Hi), (arg_int dt) by (unfold is_int, measure in *; lia). cbn [andthen ret bind].
  rewrite validate_ok by assumption. cbn [andthen ret bind]. rewrite prepare_ok by exact S. reflexivity.
Qed.
Lemma same_firstn threads n : same_type ttype threads -> forall a b, In a (firstn n threads) -> In b (firstn n threads) -> ttype a = ttype b.
Proof.
  intros S a b Ia Ib. assert (H : forall x, In x (firstn n threads) -> In x threads).
  { intros x I. rewrite <- (firstn_skipn n threads). apply in_or_app. now left. }
  apply S; apply H; assumption.
Qed.
Lemma of_full threads m dt : is_int m -> 1 <= m -> 2 <= Z.of_nat (length threads) <= 46340 -> measure dt -> same_type ttype threads ->
  exists d, distances_of ttype cmp threads m dt = ret d /\ wf d /\ get_size d = (Z.min m (Z.of_nat (length threads) - 1), Z.of_nat (length threads)) /\
    forall i j, within (Z.min m (Z.of_nat (length threads) - 1)) (Z.of_nat (length threads)) i j -> i <> j ->
      exists a b, nth_error threads (Z.to_nat (Z.min i j)) = Some a /\ nth_error threads (Z.to_nat (Z.max i j)) = Some b /\
        get_distance zero d i j = Ok (cmp dt a b).
Proof.
  intros Im Hm Hn Hdt S. destruct threads as [|x threads0] eqn:Et; [cbn in Hn; lia|]. rewrite <- Et in *. clear Et threads0.
  set (n := Z.of_nat (length threads)) in *.
  destruct (compare_ok ttype cmp threads x m n dt ltac:(lia) ltac:(unfold max_n; lia) ltac:(lia)) as (d & E & W & Em & En & G).
  { apply same_firstn, S. }
  exists d. rewrite of_eq by (assumption || lia). fold n. rewrite E. cbn [bind]. split; [reflexivity|]. split; [exact W|]. split; [unfold get_size; congruence|].
  intros i j Wi N. pose proof Wi as [H1 H2]. rewrite G by (apply within_range; assumption || lia).
  assert (NE : forall k, 0 <= k < n -> nth_error threads (Z.to_nat k) = Some (nth (Z.to_nat k) threads x)) by (intros k Hk; apply nth_error_nth'; unfold n in Hk; lia).
  exists (nth (Z.to_nat (Z.min i j)) threads x), (nth (Z.to_nat (Z.max i j)) threads x).
  split; [apply NE; lia|]. split; [apply NE; lia|]. reflexivity.
Qed.
Lemma of_values threads m dt : is_int m -> 1 <= m -> 2 <= Z.of_nat (length threads) <= 46340 -> measure dt -> same_type ttype threads ->
  exists d, distances_of ttype cmp threads m dt = ret d /\ get_size d = (Z.min m (Z.of_nat (length threads) - 1), Z.of_nat (length threads)) /\
    py_distances_dup d = ret d /\
    (forall i j, within (Z.min m (Z.of_nat (length threads) - 1)) (Z.of_nat (length threads)) i j -> i <> j ->
      exists a b, nth_error threads (Z.to_nat (Z.min i j)) = Some a /\ nth_error threads (Z.to_nat (Z.max i j)) = Some b /\
        py_get_distance zero d i j = ret (cmp dt a b)) /\
    (forall i, within (Z.min m (Z.of_nat (length threads) - 1)) (Z.of_nat (length threads)) i i -> py_get_distance zero d i i = ret zero) /\
    (forall i j, is_int i -> is_int j -> ~ within (Z.min m (Z.of_nat (length threads) - 1)) (Z.of_nat (length threads)) i j ->
      py_get_distance zero d i j = raise ValueError).
Proof.
  intros Im Hm Hn Hdt S. destruct (of_full threads m dt Im Hm Hn Hdt S) as (d & E & W & Sz & G).
  unfold get_size in Sz. injection Sz as Em En. exists d. split; [exact E|]. split; [unfold get_size; congruence|].
  split; [unfold py_distances_dup; rewrite (dup_eq d W); reflexivity|].
  split; [|split].
  - intros i j Wi N. destruct (G i j Wi N) as (a & b & Na & Nb & V). exists a, b. split; [exact Na|]. split; [exact Nb|].
    pose proof Wi as [H1 H2]. rewrite get_within; [rewrite V; reflexivity|unfold is_int; lia|unfold is_int; lia|rewrite Em, En; exact Wi].
  - intros i Wi. pose proof Wi as [H1 H2]. rewrite get_within; [rewrite get_diag; reflexivity|unfold is_int; lia|unfold is_int; lia|rewrite Em, En; exact Wi].
  - intros i j Hi Hj N. apply get_raises; [exact Hi|exact Hj|rewrite Em, En; exact N].
Qed.

(** ** Pickling *)
Definition storable (p : Part F) : Prop := is_int (pt_m p) /\ is_int (pt_n p) /\ is_int (pt_m_begin p) /\ is_int (pt_n_begin p) /\
  0 <= pt_len p < 2 ^ 64 /\ is_int (pt_type p) /\ 0 <= pt_checksum p < 2 ^ 32 /\
  match pt_distances p with None => True | Some vals => Z.of_nat (length vals) = pt_len p end.
Lemma storable_pickles p : storable p -> pickles p.
Proof.
  destruct p as [m n mb nb len dt c ds]. unfold storable. cbn [pt_m pt_n pt_m_begin pt_n_begin pt_len pt_type pt_checksum pt_distances].
  intros (H1 & H2 & H3 & H4 & H5 & H6 & H7 & H8). unfold pickles, reduce. cbn [pt_m pt_n pt_m_begin pt_n_begin pt_len pt_type pt_checksum pt_distances].
  assert (K : forall z, 0 <= z < 2 ^ 64 -> arg_K z = z) by (intros z Hz; apply Z.mod_small; exact Hz).
  exists (Pickle m n mb nb (arg_K len) dt (arg_K c) ds). split.
  - destruct ds as [vals|]; [|reflexivity]. replace (length vals <? Z.to_nat len)%nat with false by (symmetry; apply Nat.ltb_ge; lia).
    cbn [bind]. rewrite firstn_all2 by lia. reflexivity.
  - unfold part_from. cbn [k_m k_n k_m_begin k_n_begin k_len k_type k_checksum k_distances].
    rewrite !arg_int by assumption. cbn [andthen ret bind]. rewrite !(K len H5), !(K c) by lia.
    rewrite (Z.mod_small c) by exact H7.
    destruct ds as [vals|]; [|reflexivity]. rewrite (proj2 (Z.eqb_eq _ _) H8). reflexivity.
Qed.

(** ** Making, computing and merging parts *)
Lemma concat_chunk {A} (c : list A) cs : In c cs -> (length c <= length (concat cs))%nat.
Proof. induction cs as [|a cs IH]; [intros []|]. intros [->|I]; cbn; rewrite app_length; [lia|]. specialize (IH I). lia. Qed.
Lemma created m n dt nparts ps : 0 < m -> 1 < n <= max_n -> 0 < nparts -> is_int dt -> part_create F m n dt nparts = Ok ps ->
  Forall (fun p => storable p /\ pt_n p = n /\ pt_m p = Z.min m (n - 1) /\ pt_type p = dt /\ pt_distances p = None) ps /\
  Z.of_nat (length ps) = Z.min nparts (entries (Z.min m (n - 1)) n).
Proof.
  intros Hm Hn Hp Hdt E. destruct (part_create_ok F m n dt nparts Hm Hn Hp) as (ps' & chunks & E' & Hc & Hcov & Hlen).
  rewrite E in E'. injection E' as <-. set (m' := Z.min m (n - 1)) in *. assert (Hm' : 0 < m' < n) by (unfold m'; lia).
  destruct (entries_eq m' n Hm') as (E1 & _). assert (Be : entries m' n <= 2 ^ 63).
  { unfold entries. pose proof (Z.div_pos (m' * (m' - 1)) 2 ltac:(nia) ltac:(lia)). unfold max_n in Hn. nia. }
  split.
  - pose proof (fun c (I : In c chunks) => concat_chunk c chunks I) as CL. rewrite Hc in CL.
    assert (IC : forall c p, In c chunks -> hd_error c = Some p -> upper m' n p).
    { intros c p I Hd. apply (proj2 (loop_pairs_all m' n)). change (loop_pairs m' n) with (loop_pairs m' n). rewrite <- Hc. apply in_concat. exists c. split; [exact I|].
      destruct c; [discriminate|]. injection Hd as ->. now left. }
    clear Hc Hlen E. induction Hcov as [|p c ps cs [Ep Hd] Hcov IH]; constructor.
    + pose proof (IC c _ (or_introl eq_refl) Hd) as U. pose proof (CL c (or_introl eq_refl)) as LC. unfold upper in U. cbn [fst snd] in U.
      unfold max_n in Hn. rewrite Ep. unfold storable, part_new. cbn. unfold is_int in *. repeat split; try lia.
    + apply IH; [intros; apply CL; now right | intros; eapply IC; [right|]; eassumption].
  - assert (L : length ps = length chunks) by (clear -Hcov; induction Hcov; cbn; congruence). rewrite L.
    assert (L2 : length (map (@List.length (Z * Z)) chunks) = length chunks) by apply map_length. rewrite <- L2. rewrite Hlen.
    assert (He : 0 < entries m' n).
    { rewrite <- E1. destruct (loop_pairs m' n) eqn:El; [|cbn [length]; lia]. exfalso.
      assert (I : In (0, 1) (loop_pairs m' n)) by (apply (proj2 (loop_pairs_all m' n)); unfold upper; cbn; lia). rewrite El in I. destruct I. }
    apply (sizes_balanced (entries m' n) nparts He Hp).
Qed.
Lemma create_eq n nparts m dt : is_int n -> is_int m -> 2 <= n -> 0 <= m -> measure dt ->
  @py_part_create F n nparts m dt = do ps <- part_create F (if m =? 0 then n - 1 else m) n dt (nparts mod 2 ^ 32); ret ps.
Proof.
  clear ttype cmp fc ck zero.
  intros In Im Hn Hm Hdt. unfold py_part_create. rewrite (arg_int n In), (arg_int m Im), (arg_int dt) by (unfold is_int; destruct Hdt as [->|[->| ->]]; lia). cbn [andthen ret bind].
  destruct (m =? 0) eqn:C; [rewrite chk_ok by (unfold is_int in In, Im; unfold int_max; lia)|]; cbn [bind]; rewrite validate_ok by (assumption || lia); reflexivity.
Qed.
Lemma compute_eq threads p : Z.of_nat (length threads) = pt_n p -> same_type ttype threads ->
  py_part_compute ttype cmp fc ck p threads = do p <- part_compute cmp fc ck threads p; ret p.
Proof. intros L S. unfold py_part_compute. rewrite prepare_ok by exact S. cbn [andthen ret bind]. rewrite L, Z.eqb_refl. reflexivity. Qed.
Lemma compute_raises threads p : (~ same_type ttype threads -> py_part_compute ttype cmp fc ck p threads = raise TypeError) /\
  (same_type ttype threads -> Z.of_nat (length threads) <> pt_n p -> py_part_compute ttype cmp fc ck p threads = raise ValueError).
Proof.
  unfold py_part_compute. split; [intros S; rewrite prepare_bad by exact S; reflexivity|]. intros S N. rewrite prepare_ok by exact S. cbn [andthen ret bind].
  rewrite (proj2 (Z.eqb_neq _ _) N). reflexivity.
Qed.
Lemma compute_loop_length m n (f : T -> T -> F) threads len : forall p vals, compute_loop m n f threads len p = Ok vals -> length vals = len.
Proof.
  induction len as [|k IH]; intros [i j] vals; cbn [compute_loop]; [intros [= <-]; reflexivity|].
  destruct (assertb (i <? j)); [|discriminate|discriminate]. cbn [bind]. destruct (assertb ((i <? m) && (j <? n))); [|discriminate|discriminate]. cbn [bind].
  destruct (load threads i); [|discriminate|discriminate]. cbn [bind]. destruct (load threads j); [|discriminate|discriminate]. cbn [bind].
  destruct (compute_loop _ _ _ _ k _) eqn:E; [|discriminate|discriminate]. cbn [bind]. intros [= <-]. cbn. f_equal. eapply IH, E.
Qed.
Lemma computed_storable threads p c : (forall l, 0 <= ck l < 2 ^ 32) -> storable p -> part_compute cmp fc ck threads p = Ok c -> storable c.
Proof.
  intros Hck (H1 & H2 & H3 & H4 & H5 & H6 & _). unfold part_compute. destruct (compute_loop _ _ _ _ _ _) as [vals| |] eqn:E; [|discriminate|discriminate]. cbn [bind].
  destruct (_ <? _)%nat; [discriminate|]. intros [= <-]. unfold storable. cbn [pt_m pt_n pt_m_begin pt_n_begin pt_len pt_type pt_checksum pt_distances].
  apply compute_loop_length in E. repeat (split; [assumption || apply Hck|]). lia.
Qed.
End Threads.

(** ** Linking the parts of a list *)
Section Link.
Context {F : Type}.
Notation pstore := (pstore F).
Lemma set_link_ok (st : pstore) : forall r p n, holds st r p -> exists st', set_link st r n = Ok st' /\ nth_error st' r = Some (p, n) /\
  length st' = length st /\ (forall q, q <> r -> nth_error st' q = nth_error st q).
Proof.
  induction st as [|[x l] st IH]; intros [|r] p n (l' & H); try discriminate; cbn in H |- *.
  - injection H as <- <-. eexists. split; [reflexivity|]. split; [reflexivity|]. split; [reflexivity|]. intros [|q]; [congruence|reflexivity].
  - destruct (IH r p n (ex_intro _ l' H)) as (st' & E & N & L & O). rewrite E. cbn. eexists. split; [reflexivity|]. split; [exact N|]. split; [cbn; congruence|].
    intros [|q] Hq; [reflexivity|]. apply O. congruence.
Qed.
(** [rs] is a chain in [st] that ends. *)
Fixpoint chain (st : pstore) (rs : list nat) (ps : list (Part F)) : Prop :=
  match rs, ps with
  | [], [] => True
  | r :: rs', p :: ps' => nth_error st r = Some (p, hd_error rs') /\ chain st rs' ps'
  | _, _ => False
  end.
Lemma chain_ext st st' rs : forall ps, (forall r, In r rs -> nth_error st' r = nth_error st r) -> chain st rs ps -> chain st' rs ps.
Proof.
  induction rs as [|r rs IH]; intros [|p ps] E; cbn; [tauto..|]. intros [H1 H2]. split; [rewrite E by (now left); exact H1|].
  apply IH; [intros; apply E; now right|exact H2].
Qed.
Lemma set_link_holds (st : pstore) r p n st' : holds st r p -> set_link st r n = Ok st' -> forall q x, holds st q x -> holds st' q x.
Proof.
  intros H E q x (l & Hq). destruct (set_link_ok st r p n H) as (st'' & E' & N & _ & O). rewrite E in E'. injection E' as <-.
  destruct (Nat.eq_dec q r) as [->|D]; [|exists l; rewrite O by exact D; exact Hq].
  destruct H as (l0 & H). rewrite H in Hq. injection Hq as <- <-. exists n. exact N.
Qed.
Lemma link_parts_ok rs : forall prev ps (st : pstore), NoDup rs -> Forall2 (holds st) rs ps ->
  match prev with Some (q, p) => holds st q p /\ ~ In q rs | None => True end ->
  exists st', link_parts (map Some rs) (option_map fst prev) st = ret st' /\ length st' = length st /\
    match prev with
    | Some (q, p) => chain st' (q :: rs) (p :: ps)
    | None => chain st' rs ps
    end.
Proof.
  induction rs as [|r rs IH]; intros prev ps st ND F2 HP; inversion F2 as [|? p ? ps' H1 F2']; subst.
  - cbn. destruct prev as [[q p]|]; cbn; [|eauto]. destruct HP as [Hq _]. destruct (set_link_ok st q p None Hq) as (st' & E & N & L & _). rewrite E. cbn. eauto 6.
  - inversion ND as [|? ? NI ND']; subst. cbn [map link_parts].
    assert (K : exists st1, match option_map fst prev with None => Ok st | Some q => set_link st q (Some r) end = Ok st1 /\ length st1 = length st /\
      (forall q x, holds st q x -> holds st1 q x) /\ match prev with Some (q, pq) => nth_error st1 q = Some (pq, Some r) | None => True end).
    { destruct prev as [[q pq]|]; cbn; [|exists st; auto]. destruct HP as [Hq _]. destruct (set_link_ok st q pq (Some r) Hq) as (st1 & E & N & L & _).
      exists st1. split; [exact E|]. split; [exact L|]. split; [exact (set_link_holds _ _ _ _ _ Hq E)|exact N]. }
    destruct K as (st1 & E1 & L1 & Hh & Hp). rewrite E1. cbn [bind].
    destruct (IH (Some (r, p)) ps' st1 ND') as (st' & E' & L' & C).
    { clear -F2' Hh. induction F2'; constructor; auto. }
    { split; [apply Hh, H1|exact NI]. }
    cbn [option_map fst] in E'. rewrite E'. exists st'. split; [reflexivity|]. split; [congruence|].
    destruct prev as [[q pq]|]; [|exact C]. split; [|exact C]. cbn [hd_error].
    (* the link of q is not touched later *)
    destruct HP as [_ NQ].
    assert (KEEP : forall items prev (s s' : pstore) x, ~ In (Some x) items -> prev <> Some x -> link_parts items prev s = ret s' -> nth_error s' x = nth_error s x).
    { clear. assert (SL : forall (s s' : pstore) a n x, a <> x -> set_link s a n = Ok s' -> nth_error s' x = nth_error s x).
      { induction s as [|[y l] s IH]; intros s' [|a] n x D; cbn; try discriminate.
        - intros [= <-]. destruct x; [congruence|reflexivity].
        - destruct (set_link s a n) as [s1| |] eqn:E; cbn; try discriminate. intros [= <-]. destruct x; [reflexivity|]. cbn. eapply IH; [|exact E]. congruence. }
      induction items as [|[r|] items IH]; intros prev s s' x NI NP; cbn [link_parts].
      - destruct prev as [a|]; [|intros [= <-]; reflexivity]. destruct (set_link s a None) as [s1| |] eqn:E; cbn; try discriminate. intros [= <-]. eapply SL; [|exact E]. congruence.
      - destruct prev as [a|].
        + destruct (set_link s a (Some r)) as [s1| |] eqn:E; cbn [bind]; try discriminate. intros E'. transitivity (nth_error s1 x).
          * eapply IH; [| |exact E']; [intros I; apply NI; now right|intros [= ->]; apply NI; now left].
          * eapply SL; [|exact E]. congruence.
        + cbn [bind]. intros E'. eapply IH; [| |exact E']; [intros I; apply NI; now right|intros [= ->]; apply NI; now left].
      - discriminate. }
    etransitivity; [eapply KEEP; [| |exact E']|exact Hp].
    + intros I. apply in_map_iff in I as (y & [= ->] & I). apply NQ. now right.
    + intros [= ->]. apply NQ. now left.
Qed.
Lemma chain_linked st rs : forall ps fuel, chain st rs ps -> (length rs < fuel)%nat -> linked fuel st (hd_error rs) = Ok ps.
Proof.
  induction rs as [|r rs IH]; intros [|p ps] fuel; cbn [chain]; try tauto.
  - destruct fuel; reflexivity.
  - intros [N C] Hf. destruct fuel as [|fuel]; [cbn in Hf; lia|]. cbn [linked hd_error]. rewrite N. rewrite (IH ps fuel C) by (cbn in Hf; lia). reflexivity.
Qed.
Lemma refs_bound (st : pstore) rs ps : NoDup rs -> Forall2 (holds st) rs ps -> (length rs <= length st)%nat.
Proof.
  intros ND F2. rewrite <- (seq_length (length st) 0). apply NoDup_incl_length; [exact ND|]. intros r I. apply in_seq.
  assert (H : exists p, holds st r p). { clear ND. induction F2 as [|a b la lb H F2 IH]; [destruct I|]. destruct I as [<-|I]; eauto. }
  destruct H as (p & l & H). assert (nth_error st r <> None) by congruence. apply nth_error_Some in H0. lia.
Qed.
Lemma merge_parts_eq rs ps (st : pstore) : rs <> [] -> NoDup rs -> Forall2 (holds st) rs ps ->
  merge_parts (map Some rs) st = match part_merge ps with Ok d => ret d | Fail => raise RuntimeError | UB => UB end.
Proof.
  intros NE ND F2. unfold merge_parts. destruct (link_parts_ok rs None ps st ND F2 I) as (st' & E & L & C). cbn [option_map] in E. rewrite E. cbn [andthen ret bind].
  destruct rs as [|r rs]; [congruence|]. cbn [map]. change (Some r) with (hd_error (r :: rs)).
  rewrite (chain_linked st' (r :: rs) ps _ C); [reflexivity|]. pose proof (refs_bound st (r :: rs) ps ND F2). lia.
Qed.
Lemma merge_foreign items (st : pstore) : (forall r, In (Some r) items -> exists p, holds st r p) -> In None items -> merge_parts items st = raise TypeError.
Proof.
  intros H I. unfold merge_parts.
  assert (K : forall items prev (s : pstore), (forall r, In (Some r) items \/ prev = Some r -> exists p, holds s r p) -> In None items -> link_parts items prev s = raise TypeError).
  { clear. induction items as [|[r|] items IH]; intros prev s H I; [destruct I| |reflexivity]. cbn [link_parts].
    destruct I as [I|I]; [discriminate|].
    destruct prev as [q|].
    - destruct (H q (or_intror eq_refl)) as (p & Hq). destruct (set_link_ok s q p (Some r) Hq) as (s' & E & _). rewrite E. cbn [bind].
      apply IH; [|exact I]. intros x Hx. assert (Hx' : exists p, holds s x p).
      { destruct Hx as [Hx|[= ->]]; apply H; left; [now right|now left]. }
      destruct Hx' as (px & Hx'). exists px. eapply set_link_holds; [exact Hq|exact E|exact Hx'].
    - cbn [bind]. apply IH; [|exact I]. intros x [Hx|[= ->]]; apply H; left; [now right|now left]. }
  rewrite (K items None st); [reflexivity| |exact I]. intros r [Hr|]; [apply H, Hr|discriminate].
Qed.
Lemma merge_empty (st : pstore) : merge_parts [] st = raise SystemError.
Proof. reflexivity. Qed.
End Link.

(** ** The whole computation, spread over processes *)
Section Spread.
Context {T F : Type} (ttype : T -> nat) (cmp : Z -> T -> T -> F) (fc : T -> Z) (ck : list Z -> Z) (zero : F).
Lemma spread threads m dt nparts : (forall l, 0 <= ck l < 2 ^ 32) -> is_int m -> 0 <= m -> 2 <= Z.of_nat (length threads) <= 46340 -> measure dt -> same_type ttype threads ->
  nparts mod 2 ^ 32 <> 0 ->
  let n := Z.of_nat (length threads) in
  let m' := if m =? 0 then n - 1 else m in
  exists ps cs d, @py_part_create F n nparts m dt = ret ps /\ Z.of_nat (length ps) = Z.min (nparts mod 2 ^ 32) (entries (Z.min m' (n - 1)) n) /\
    Forall pickles ps /\ Forall2 (fun p c => py_part_compute ttype cmp fc ck p threads = ret c) ps cs /\ Forall pickles cs /\
    distances_of ttype cmp threads m' dt = ret d /\
    forall st rs cs', Permutation cs cs' -> NoDup rs -> Forall2 (holds st) rs cs' -> merge_parts (map Some rs) st = ret d.
Proof.
  intros Hck Im Hm Hn Hdt S Hp n m'. fold n in Hn. assert (Hm' : 0 < m') by (unfold m'; destruct (m =? 0) eqn:C; lia).
  assert (Im' : is_int m') by (unfold m', is_int in *; destruct (m =? 0); lia).
  pose proof (Z.mod_pos_bound nparts (2 ^ 32) ltac:(lia)) as Bp.
  destruct (parts_merge_ok ttype cmp fc ck threads m' n dt (nparts mod 2 ^ 32) Hm' ltac:(unfold max_n; lia) ltac:(lia) ltac:(unfold n; lia) (same_firstn ttype threads _ S))
    as (ps & cs & Ec & F2 & Hmerge).
  destruct (created m' n dt (nparts mod 2 ^ 32) ps Hm' ltac:(unfold max_n; lia) ltac:(lia) ltac:(unfold is_int, measure in *; lia) Ec) as (Hst & Hlen).
  destruct (of_full ttype cmp zero threads m' dt Im' ltac:(lia) Hn Hdt S) as (d & Ed & _).
  assert (Ed' : threads_compare ttype cmp threads m' n dt = Ok d).
  { rewrite of_eq in Ed by (assumption || lia). fold n in Ed. destruct (threads_compare ttype cmp threads m' n dt); cbn [bind] in Ed; [injection Ed as ->; reflexivity|discriminate|discriminate]. }
  exists ps, cs, d. split; [rewrite create_eq by (assumption || (unfold is_int; lia)); fold m'; rewrite Ec; reflexivity|].
  split; [exact Hlen|]. split; [eapply Forall_impl; [|exact Hst]; intros p (H & _); apply storable_pickles, H|].
  assert (F2' : Forall2 (fun p c => py_part_compute ttype cmp fc ck p threads = ret c) ps cs /\ Forall pickles cs).
  { clear -F2 Hst Hck S. subst n. induction F2 as [|p c ps cs H F2 IH]; [split; constructor|]. inversion Hst as [|? ? (H1 & H2 & _) Hst']; subst. destruct (IH Hst') as [I1 I2].
    split; constructor; [|exact I1| |exact I2].
    - rewrite compute_eq by (auto || congruence). rewrite H. reflexivity.
    - eapply storable_pickles, computed_storable; eassumption. }
  destruct F2' as [F2' Fp]. split; [exact F2'|]. split; [exact Fp|]. split; [exact Ed|].
  intros st rs cs' P ND H. rewrite (merge_parts_eq rs cs' st); [|intros ->|exact ND|exact H].
  - rewrite (Hmerge cs' P), Ed'. reflexivity.
  - inversion H; subst. apply Permutation_sym, Permutation_nil in P. subst cs. inversion F2; subst. cbn [length] in Hlen. change (Z.of_nat 0) with 0 in Hlen.
    assert (He : 0 < entries (Z.min m' (n - 1)) n); [|lia]. destruct (entries_eq (Z.min m' (n - 1)) n ltac:(lia)) as (E1 & _). rewrite <- E1.
    destruct (loop_pairs (Z.min m' (n - 1)) n) eqn:El; [|cbn [length]; lia]. exfalso.
    assert (I : In (0, 1) (loop_pairs (Z.min m' (n - 1)) n)) by (apply (proj2 (loop_pairs_all _ n)); unfold upper; cbn; lia). rewrite El in I. destruct I.
Qed.
(** A merge that returns has checked the parts. *)
Lemma merge_agrees (st : pstore F) rs ps d : NoDup rs -> Forall2 (holds st) rs ps -> merge_parts (map Some rs) st = ret d ->
  Forall (fun p => pt_distances p <> None) ps /\
  forall p q, In p ps -> In q ps -> pt_m p = pt_m q /\ pt_n p = pt_n q /\ pt_checksum p = pt_checksum q.
Proof.
  intros ND H E. destruct rs as [|r rs]; [discriminate|]. rewrite (merge_parts_eq (r :: rs) ps st) in E by (discriminate || assumption).
  destruct ps as [|p0 ps]; [inversion H|]. destruct (part_merge (p0 :: ps)) as [d'| |] eqn:Em; try discriminate.
  pose proof (merge_checks p0 ps d' Em) as C. rewrite Forall_forall in C. split.
  - apply Forall_forall. intros p I. apply C in I. tauto.
  - intros p q Ip Iq. apply C in Ip, Iq. intuition congruence.
Qed.
Lemma create_raises n nparts m dt : (~ is_int n \/ ~ is_int m \/ ~ is_int dt -> @py_part_create F n nparts m dt = raise OverflowError) /\
  (is_int n -> is_int m -> is_int dt -> -2147483648 < n -> m < 0 \/ n < 2 \/ ~ measure dt -> @py_part_create F n nparts m dt = raise ValueError) /\
  (2 <= n <= 46340 -> is_int m -> 0 <= m -> measure dt -> nparts mod 2 ^ 32 = 0 -> @py_part_create F n nparts m dt = UB).
Proof.
  clear ttype cmp fc ck zero.
  split; [|split].
  - unfold py_part_create. intros H. destruct (is_int_dec n) as [In|In]; [rewrite (arg_int n In)|rewrite (arg_not_int n In); reflexivity]. cbn [andthen ret bind].
    destruct (is_int_dec m) as [Im|Im]; [rewrite (arg_int m Im)|rewrite (arg_not_int m Im); reflexivity]. cbn [andthen ret bind].
    rewrite (arg_not_int dt) by tauto. reflexivity.
  - intros In Im Id Hn H. unfold py_part_create. rewrite !arg_int by assumption. cbn [andthen ret bind].
    destruct (m =? 0) eqn:C; [rewrite chk_ok by (unfold is_int in In, Im; unfold int_max; lia)|]; cbn [bind]; rewrite validate_bad by (destruct H as [H|[H|H]]; [left; lia|right; left; lia|right; right; exact H]); reflexivity.
  - intros Hn Im Hm Hdt HZ. rewrite create_eq by (assumption || lia || (unfold is_int; lia)). rewrite HZ. rewrite part_create_zero; [reflexivity| |unfold max_n; lia].
    destruct (m =? 0) eqn:C; lia.
Qed.
(** ** Dendrograms *)
Variables (gt le : F -> F -> bool) (avg : F -> Z -> F -> Z -> F).
Lemma load_nth {A} (l : list A) i : 0 <= i < Z.of_nat (length l) -> exists v, load l i = Ok v /\ nth_error l (Z.to_nat i) = Some v.
Proof.
  intros H. unfold load. replace (0 <=? i) with true by lia. destruct (nth_error l (Z.to_nat i)) eqn:E; [eauto|]. apply nth_error_None in E. lia.
Qed.
Lemma load_out {A} (l : list A) i : Z.of_nat (length l) <= i -> load l i = UB.
Proof. intros H. unfold load. destruct (0 <=? i) eqn:C; [|reflexivity]. destruct (nth_error l (Z.to_nat i)) eqn:E; [|reflexivity]. assert (nth_error l (Z.to_nat i) <> None) by congruence. apply nth_error_Some in H0. lia. Qed.
Lemma dendrogram_reads (g : @dendrogram F) : 1 <= Z.of_nat (length (dg_order g)) <= 46340 -> Z.of_nat (length (dg_levels g)) = Z.of_nat (length (dg_order g)) - 1 ->
  let n := dendrogram_size g in
  (forall i, 0 <= i < n -> exists o, get_object g i = ret o /\ nth_error (dg_order g) (Z.to_nat i) = Some o) /\
  (forall i, is_int i -> i < 0 \/ n <= i -> get_object g i = raise ValueError) /\
  (forall i, 0 <= i < n - 1 -> exists v, get_merge_level g i = ret v /\ nth_error (dg_levels g) (Z.to_nat i) = Some v) /\
  (forall i, is_int i -> i < 0 \/ n < i -> get_merge_level g i = raise ValueError) /\
  get_merge_level g (n - 1) = UB /\ get_merge_level g n = UB /\
  (forall i, ~ is_int i -> get_object g i = raise OverflowError /\ get_merge_level g i = raise OverflowError).
Proof.
  intros Hn HL n. unfold n, dendrogram_size, get_object, get_merge_level. repeat split.
  - intros i Hi. rewrite arg_int by (unfold is_int; lia). cbn [andthen ret bind]. unfold dendrogram_size. replace (_ || _) with false by lia.
    destruct (load_nth (dg_order g) i Hi) as (o & -> & E). exists o. split; [reflexivity|exact E].
  - intros i Ii Hi. rewrite arg_int by exact Ii. cbn [andthen ret bind]. unfold dendrogram_size. replace (_ || _) with true by lia. reflexivity.
  - intros i Hi. rewrite arg_int by (unfold is_int; lia). cbn [andthen ret bind]. unfold dendrogram_size. replace (_ || _) with false by lia.
    destruct (load_nth (dg_levels g) i ltac:(lia)) as (o & -> & E). exists o. split; [reflexivity|exact E].
  - intros i Ii Hi. rewrite arg_int by exact Ii. cbn [andthen ret bind]. unfold dendrogram_size. replace (_ || _) with true by lia. reflexivity.
  - rewrite arg_int by (unfold is_int; lia). cbn [andthen ret bind]. unfold dendrogram_size. replace (_ || _) with false by lia. rewrite load_out by lia. reflexivity.
  - rewrite arg_int by (unfold is_int; lia). cbn [andthen ret bind]. unfold dendrogram_size. replace (_ || _) with false by lia. rewrite load_out by lia. reflexivity.
  - rewrite arg_not_int by assumption. reflexivity.
  - rewrite arg_not_int by assumption. reflexivity.
Qed.
Lemma in_range_within m n i j : m < n -> in_range m n i j -> within m n (Z.min i j) (Z.max i j) /\ Z.min i j <> Z.max i j.
Proof. unfold in_range, within. lia. Qed.
Lemma threads_cluster threads m dt : is_int m -> 1 <= m -> 2 <= Z.of_nat (length threads) <= 46340 -> measure dt -> same_type ttype threads ->
  exists d g, distances_of ttype cmp threads m dt = ret d /\ py_cluster zero gt le avg d = ret g /\
    dendrogram_size g = Z.of_nat (length threads) /\ Z.of_nat (length (dg_levels g)) = Z.of_nat (length threads) - 1 /\
    Permutation (dg_order g) (map Z.of_nat (seq 0 (length threads))).
Proof.
  intros Im Hm Hn Hdt S. destruct (of_full ttype cmp zero threads m dt Im Hm Hn Hdt S) as (d & E & W & Sz & G). unfold get_size in Sz. injection Sz as Em En.
  assert (FU : full zero d).
  { split; [exact W|]. rewrite Em, En. intros i j R. destruct (in_range_within (Z.min m (Z.of_nat (length threads) - 1)) (Z.of_nat (length threads)) i j ltac:(lia) R) as [R1 R2]. destruct (G _ _ R1 R2) as (a & b & _ & _ & V).
    destruct (Z.le_ge_cases i j); [rewrite Z.min_l, Z.max_r in V by lia|rewrite Z.min_r, Z.max_l in V by lia; rewrite get_sym]; eauto. }
  destruct (cluster_ok zero gt le avg d FU) as (g & Eg & P & L). rewrite En in P, L.
  exists d, g. split; [exact E|]. split; [unfold py_cluster; rewrite Eg; reflexivity|].
  assert (ZR : zrange 0 (Z.of_nat (length threads)) = map Z.of_nat (seq 0 (length threads))).
  { unfold zrange. rewrite Z.sub_0_r, Nat2Z.id. apply map_ext. intros; lia. }
  rewrite ZR in P. split; [unfold dendrogram_size; rewrite (Permutation_length P), map_length, seq_length; reflexivity|]. split; [exact L|exact P].
Qed.
End Spread.
Lemma sorted_nodup (rs : list (nat * nat)) : Sorted.StronglySorted (fun p q => (snd p < fst q)%nat) rs -> (forall a b, In (a, b) rs -> (a <= b)%nat) -> NoDup rs.
Proof.
  induction 1 as [|[a b] l S IH Fa]; intros H; constructor.
  - intros I. rewrite Forall_forall in Fa. specialize (Fa _ I). cbn in Fa. specialize (H a b (or_introl eq_refl)). lia.
  - apply IH. intros x y I. apply H. now right.
Qed.
Lemma cut_runs {F} (le : F -> F -> bool) g level min_size : (length (dg_levels g) + 1 = length (dg_order g))%nat -> is_int min_size ->
  exists cs rs, py_cut le g level min_size = ret cs /\
    (forall a b, In (a, b) rs <-> maximal_run le (dg_levels g) (length (dg_order g)) level a b /\ min_size <= Z.of_nat (b - a + 1)) /\
    NoDup rs /\ cs = rev (map (fun ab => slice (dg_order g) (fst ab) (snd ab)) rs).
Proof.
  intros H Im. destruct (cut_spec le g level H min_size) as (cs & rs & E & S & R & Ec). exists cs, rs.
  unfold py_cut. rewrite arg_int by exact Im. cbn [andthen ret bind]. rewrite E. split; [reflexivity|]. split; [exact R|]. split; [|exact Ec].
  apply sorted_nodup; [exact S|]. intros a b I. apply R in I as [(L & _) _]. lia.
Qed.
