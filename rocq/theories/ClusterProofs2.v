(** * Lemmas about clustering: the whole loop, and cutting. *)
From Verif Require Import Base DistMatrixModel DistMatrixSpec DistMatrixProofs ClusterModel ClusterSpec ClusterProofs.
Open Scope Z_scope.

Lemma collect_ok {A} (g : Z -> res A) l vs acc : Forall2 (fun i v => g i = Ok v) l vs ->
  fold_res (fun acc i => do v <- g i; Ok (acc ++ [v])) l acc = Ok (acc ++ vs).
Proof.
  intros F. revert acc; induction F as [|i v l vs E F IH]; intros acc; cbn; [now rewrite app_nil_r|].
  rewrite E. cbn. rewrite IH, <- app_assoc. reflexivity.
Qed.
Lemma load_range {A} (l : list A) a b : 0 <= a <= b -> b <= Z.of_nat (length l) ->
  Forall2 (fun i v => load l i = Ok v) (zrange a b) (firstn (Z.to_nat (b - a)) (skipn (Z.to_nat a) l)).
Proof.
  intros H1 H2. remember (Z.to_nat (b - a)) as k eqn:K. revert a H1 K. induction k as [|k IH]; intros a H1 K.
  - rewrite zrange_empty by lia. constructor.
  - rewrite zrange_cons by lia. destruct (load_some l a) as (v & Ev); [lia|].
    pose proof Ev as Ev'. apply load_nth in Ev' as [_ Ev']. apply nth_error_split in Ev' as (l1 & l2 & E & L).
    assert (Es : skipn (Z.to_nat a) l = v :: l2). { rewrite E, <- L. clear. induction l1; cbn; auto. }
    rewrite Es. cbn [firstn]. constructor; [exact Ev|].
    replace l2 with (skipn (Z.to_nat (a + 1)) l); [apply IH; lia|].
    replace (Z.to_nat (a + 1)) with (S (Z.to_nat a)) by lia. rewrite E, <- L. clear. induction l1; cbn; auto.
Qed.
Lemma load_all {A} (l : list A) : Forall2 (fun i v => load l i = Ok v) (zrange 0 (Z.of_nat (length l))) l.
Proof.
  pose proof (load_range l 0 (Z.of_nat (length l)) ltac:(lia) ltac:(lia)) as H.
  rewrite Z.sub_0_r, Nat2Z.id in H. cbn [skipn] in H. rewrite firstn_all in H. exact H.
Qed.

Lemma tl_skipn {A} i : forall l : list A, tl (skipn i l) = skipn (S i) l.
Proof. induction i as [|i IH]; intros [|x l]; try reflexivity. cbn [skipn]. rewrite IH. now destruct l. Qed.

Section C.
Context {D : Type} (zero : D).
Variables (gt le : D -> D -> bool) (avg : D -> Z -> D -> Z -> D).
Notation mat := (matrix D).

Definition alive (p : list Z * list D) : bool := match fst p with [] => false | _ => true end.
Definition live (V : list (list Z * list D)) := filter alive V.
Lemma alive_true p : alive p = true <-> fst p <> [].
Proof. unfold alive. destruct (fst p); split; congruence. Qed.
Lemma flip_alive (p q : list Z * list D) : flip p q -> fst p <> [] -> fst q <> [].
Proof. intros [->| ->]; [auto|]. cbn. intros H E. apply H. rewrite <- (rev_involutive (fst p)), E. reflexivity. Qed.
Lemma live_step A B C (p1 p2 q : list Z * list D) : fst p1 <> [] -> fst p2 <> [] -> fst q <> [] ->
  live (A ++ p1 :: B ++ p2 :: C) = live A ++ p1 :: live B ++ p2 :: live C /\
  live (A ++ q :: B ++ ([], []) :: C) = live A ++ q :: live B ++ live C.
Proof.
  intros H1 H2 H3. apply alive_true in H1, H2, H3. unfold live. rewrite !filter_app. cbn [filter]. rewrite H1, H3, !filter_app. cbn [filter].
  rewrite H2. cbn. auto.
Qed.
Lemma live_two distances s V k : inv zero distances s V -> length (live V) = S (S k) ->
  exists p q V1 V2, V = p :: V1 ++ q :: V2 /\ fst q <> [].
Proof.
  intros (_ & _ & _ & _ & _ & _ & _ & _ & (p & V' & -> & Np)) L. cbn [live filter] in L. apply alive_true in Np. rewrite Np in L. cbn in L.
  destruct (filter alive V') as [|q r] eqn:E; [discriminate|].
  assert (Hq : In q (filter alive V')) by (rewrite E; now left). apply filter_In in Hq as [Hq Aq].
  apply in_split in Hq as (V1 & V2 & ->). exists p, q, V1, V2. split; [reflexivity|]. now apply alive_true.
Qed.
Lemma merge_times_ok distances k s V : full zero distances -> inv zero distances s V -> length (live V) = S k ->
  exists s' V', merge_times zero gt le avg distances k s = Ok s' /\ inv zero distances s' V' /\ length (live V') = 1%nat.
Proof.
  intros F. revert s V; induction k as [|k IH]; intros s V I L; [exists s, V; auto|].
  destruct (merge_once_ok zero gt le avg (fun _ _ => True) distances s V) as (s' & A & B & C & p1 & p2 & q1 & q2 & mn & E & EV & N1 & N2 & F1 & F2 & I' & _); auto.
  { eapply live_two; eassumption. }
  cbn [merge_times]. rewrite E. cbn [bind]. eapply IH; [exact I'|].
  destruct (live_step A B C p1 p2 (fst q1 ++ fst q2, snd q1 ++ mn :: snd q2) N1 N2) as [E1 E2].
  { cbn. apply (flip_alive _ _ F1) in N1. destruct (fst q1); [congruence|discriminate]. }
  rewrite EV, E1 in L. rewrite E2. rewrite !app_length in *. cbn [length] in *. rewrite !app_length in *. cbn [length] in *. lia.
Qed.
Definition start (distances : mat) : cstate :=
  mk_cstate (map (fun i => [i]) (zrange 0 (mx_n distances))) distances (repeat None (Z.to_nat (mx_n distances))).
Definition start_view (distances : mat) : list (list Z * list D) := map (fun i => ([i], [])) (zrange 0 (mx_n distances)).
Lemma concat_single {A} (l : list A) : concat (map (fun x => [x]) l) = l.
Proof. induction l; cbn; congruence. Qed.
Lemma start_inv distances : full zero distances -> inv zero distances (start distances) (start_view distances) /\
  live (start_view distances) = start_view distances /\ length (start_view distances) = S (Z.to_nat (mx_n distances - 1)).
Proof.
  intros [W F]. assert (Hn : 0 < mx_m distances < mx_n distances) by apply W. unfold start, start_view, inv. cbn [s_clusters s_levels s_distances].
  rewrite map_map. cbn [fst]. split; [|split].
  - split; [reflexivity|]. split; [rewrite concat_single; reflexivity|].
    split; [apply Forall_forall; intros p Hp; apply in_map_iff in Hp as (x & <- & _); reflexivity|].
    split; [rewrite repeat_length; lia|]. split; [rewrite map_length, zrange_length; lia|].
    split; [split; assumption|]. split; [reflexivity|]. split; [reflexivity|].
    rewrite zrange_cons by lia. cbn. eexists _, _. split; [reflexivity|]. discriminate.
  - unfold live. induction (zrange 0 (mx_n distances)); cbn; congruence.
  - rewrite map_length, zrange_length. lia.
Qed.
Lemma last_one distances s V : inv zero distances s V -> length (live V) = 1%nat ->
  exists p V', V = p :: V' /\ live V = [p] /\ fst p <> [] /\ (forall q, In q V' -> fst q = []) /\ Permutation (fst p) (zrange 0 (mx_n distances)).
Proof.
  intros (_ & I2 & _ & _ & _ & _ & _ & _ & (p & V' & -> & Np)) L. exists p, V'. split; [reflexivity|].
  unfold live in *. cbn [filter] in *. pose proof Np as Np'. apply alive_true in Np'. rewrite Np' in *. cbn in L.
  assert (E : filter alive V' = []) by (destruct (filter alive V'); [reflexivity|discriminate]).
  split; [now rewrite E|]. split; [exact Np|].
  assert (Q : forall q, In q V' -> fst q = []).
  { intros q Hq. destruct (fst q) eqn:Eq; [reflexivity|]. exfalso. assert (H : In q (filter alive V')).
    { apply filter_In. split; [exact Hq|]. unfold alive. now rewrite Eq. }
    rewrite E in H. exact H. }
  split; [exact Q|]. cbn [map concat] in I2. replace (concat (map fst V')) with (@nil Z) in I2; [now rewrite app_nil_r in I2|].
  clear - Q. induction V' as [|q V' IH]; [reflexivity|]. cbn. rewrite Q by now left. apply IH. intros; apply Q; now right.
Qed.
Lemma result_ok distances s V : full zero distances -> inv zero distances s V -> length (live V) = 1%nat ->
  merge_times zero gt le avg distances (Z.to_nat (mx_n distances - 1)) (start distances) = Ok s ->
  exists p V', V = p :: V' /\ (forall q, In q V' -> fst q = []) /\
    cluster_objects zero gt le avg distances = Ok (mk_dendrogram (fst p) (snd p)) /\
    Permutation (fst p) (zrange 0 (mx_n distances)) /\ Z.of_nat (length (snd p)) = mx_n distances - 1.
Proof.
  intros [W F] I L E. destruct (last_one _ _ _ I L) as (p & V' & EV & _ & Np & Q & P). exists p, V'.
  assert (Hn : 0 < mx_m distances < mx_n distances) by apply W.
  assert (Lp : Z.of_nat (length (fst p)) = mx_n distances). { apply Permutation_length in P. rewrite P, zrange_length. lia. }
  destruct I as (I1 & _ & I3 & I4 & _). rewrite EV in I1, I3. apply Forall_inv in I3. pose proof (levels_of_length _ _ _ I3) as Ls.
  split; [exact EV|]. split; [exact Q|]. split; [|split; [exact P|lia]].
  unfold cluster_objects. fold (start distances). replace (mx_n distances =? 0) with false by lia. cbn [negb assertb bind].
  rewrite (dup_eq _ W). cbn [bind]. fold (start distances). rewrite E. cbn [bind]. replace (1 <? mx_n distances) with true by lia. cbn [assertb bind].
  rewrite <- I1. cbn [map]. replace (load (fst p :: map fst V') 0) with (Ok (fst p)) by reflexivity. cbn [bind].
  pose proof (load_all (fst p)) as LA. rewrite Lp in LA. rewrite (collect_ok _ _ _ [] LA). cbn [bind app].
  assert (CL : Forall2 (fun i v => (do o <- load (fst p) i; do v <- load (s_levels s) o; match v with Some v => Ok v | None => UB end) = Ok v) (zrange 1 (mx_n distances)) (snd p)).
  { pose proof (load_range (fst p) 1 (mx_n distances) ltac:(lia) ltac:(lia)) as LR.
    replace (Z.to_nat 1) with 1%nat in LR by reflexivity.
    assert (Et : firstn (Z.to_nat (mx_n distances - 1)) (skipn 1 (fst p)) = tl (fst p)).
    { destruct (fst p) as [|x t] eqn:Ex; [congruence|]. cbn [skipn tl]. apply firstn_all2. cbn [length] in Lp. lia. }
    rewrite Et in LR. unfold levels_of in I3.
    assert (Rt : forall o, In o (tl (fst p)) -> 0 <= o).
    { intros o Ho. assert (H : In o (zrange 0 (mx_n distances))). { eapply Permutation_in; [exact P|]. destruct (fst p); [destruct Ho|now right]. }
      apply zrange_in in H. lia. }
    revert LR I3 Rt. generalize (tl (fst p)) as os, (snd p) as vs, (zrange 1 (mx_n distances)) as is. clear.
    intros os vs is LR. revert vs. induction LR as [|i o is os Ho LR IH]; intros [|v vs] I3 Rt; cbn in I3; try discriminate; constructor.
    - rewrite Ho. cbn [bind]. injection I3 as Eo _. unfold lv in Eo.
      assert (El : load (s_levels s) o = Ok (Some v)) by (apply load_nth; split; [apply Rt; now left|exact Eo]). now rewrite El.
    - apply IH; [now injection I3|]. intros; apply Rt; now right. }
  rewrite (fold_res_ext _ (fun acc i => do v <- (do o <- load (fst p) i; do v <- load (s_levels s) o; match v with Some v => Ok v | None => UB end); Ok (acc ++ [v]))).
  - rewrite (collect_ok _ _ _ [] CL). reflexivity.
  - intros acc i _. destruct (load (fst p) i); cbn; try reflexivity. destruct (load (s_levels s) a) as [[v|]| |]; reflexivity.
Qed.
Lemma cluster_ok distances : full zero distances -> exists g, cluster_objects zero gt le avg distances = Ok g /\
  Permutation (dg_order g) (zrange 0 (mx_n distances)) /\ Z.of_nat (length (dg_levels g)) = mx_n distances - 1.
Proof.
  intros F. destruct (start_inv distances F) as (I & El & Ll).
  destruct (merge_times_ok distances (Z.to_nat (mx_n distances - 1)) (start distances) (start_view distances) F I) as (s & V & E & I' & L').
  { now rewrite El. }
  destruct (result_ok distances s V F I' L' E) as (p & V' & _ & _ & EC & P & L). eexists. split; [exact EC|]. auto.
Qed.

(** ** Runs *)
Section Cut.
Variable t : D.
Fixpoint pruns (a i : nat) (levels : list D) : list (nat * nat) :=
  match levels with
  | [] => [(a, i)]
  | v :: ls => if le v t then pruns a (S i) ls else (a, i) :: pruns (S i) (S i) ls
  end.
Definition keep (min_size : Z) (ab : nat * nat) : bool := min_size <=? Z.of_nat (snd ab) - Z.of_nat (fst ab) + 1.

Lemma save_ok (g : @dendrogram D) (a i : nat) min_size acc : (a <= i < length (dg_order g))%nat ->
  save_cluster g (Z.of_nat a) (Z.of_nat i) min_size acc =
  Ok (if keep min_size (a, i) then slice (dg_order g) a i :: acc else acc).
Proof.
  intros H. unfold save_cluster, keep. cbn [fst snd]. destruct (_ <=? _); [|reflexivity].
  pose proof (load_range (dg_order g) (Z.of_nat a) (Z.of_nat i + 1) ltac:(lia) ltac:(lia)) as LR.
  rewrite (collect_ok _ _ _ [] LR). cbn [bind app]. unfold slice. rewrite Nat2Z.id.
  replace (Z.to_nat (Z.of_nat i + 1 - Z.of_nat a)) with (i - a + 1)%nat by lia. reflexivity.
Qed.
Lemma cut_loop (g : @dendrogram D) min_size n : n = length (dg_order g) -> (length (dg_levels g) + 1 = n)%nat ->
  forall ls (i a : nat) acc, (a <= i)%nat -> (i + length ls + 1 = n)%nat -> ls = skipn i (dg_levels g) ->
  fold_res (fun st i =>
            let '(first, acc) := st in
            do inside <- (if i + 1 <? Z.of_nat n then do v <- load (dg_levels g) i; Ok (le v t) else Ok false);
            if inside then Ok (first, acc)
            else do acc <- save_cluster g first i min_size acc; Ok (i + 1, acc)) (zrange (Z.of_nat i) (Z.of_nat n)) (Z.of_nat a, acc) =
  Ok (Z.of_nat n, rev (map (fun ab => slice (dg_order g) (fst ab) (snd ab)) (filter (keep min_size) (pruns a i ls))) ++ acc).
Proof.
  intros En El. induction ls as [|v ls IH]; intros i a acc Ha Hi Es.
  - cbn [length] in Hi. rewrite zrange_cons, zrange_empty by lia. cbn [fold_res]. replace (Z.of_nat i + 1 <? Z.of_nat n) with false by lia. cbn [bind].
    rewrite save_ok by lia. cbn [bind pruns filter]. replace (Z.of_nat i + 1) with (Z.of_nat n) by lia.
    destruct (keep min_size (a, i)); reflexivity.
  - cbn [length] in Hi. rewrite zrange_cons by lia. cbn [fold_res]. replace (Z.of_nat i + 1 <? Z.of_nat n) with true by lia.
    assert (Ev : load (dg_levels g) (Z.of_nat i) = Ok v).
    { apply load_nth. split; [lia|]. rewrite Nat2Z.id. rewrite <- (firstn_skipn i (dg_levels g)), <- Es, nth_error_app2, firstn_length by (rewrite firstn_length; lia).
      replace (i - Nat.min i (length (dg_levels g)))%nat with 0%nat by lia. reflexivity. }
    assert (Es' : ls = skipn (S i) (dg_levels g)).
    { apply (f_equal (@tl _)) in Es. cbn [tl] in Es. rewrite Es. apply tl_skipn. }
    rewrite Ev. cbn [bind pruns]. replace (Z.of_nat i + 1) with (Z.of_nat (S i)) by lia. destruct (le v t).
    + cbn [bind]. apply IH; [lia|lia|exact Es'].
    + cbn [bind]. rewrite save_ok by lia. cbn [bind]. rewrite IH; [|lia|lia|exact Es']. cbn [filter].
      destruct (keep min_size (a, i)); [|reflexivity]. cbn [map rev fst snd]. rewrite <- app_assoc. reflexivity.
Qed.
Lemma cut_eq (g : @dendrogram D) min_size : (length (dg_levels g) + 1 = length (dg_order g))%nat ->
  dendrogram_cut le g t min_size =
  Ok (rev (map (fun ab => slice (dg_order g) (fst ab) (snd ab)) (filter (keep min_size) (pruns 0 0 (dg_levels g))))).
Proof.
  intros H. unfold dendrogram_cut, size. pose proof (cut_loop g min_size _ eq_refl H (dg_levels g) 0 0 [] ltac:(lia) ltac:(lia) eq_refl) as E.
  cbn [Z.of_nat] in E. rewrite E. cbn [bind snd]. now rewrite app_nil_r.
Qed.

(** The positions of the runs. *)
Lemma pruns_in levels n : (length levels + 1 = n)%nat -> forall ls a i, ls = skipn i levels -> (a <= i)%nat -> (i + length ls + 1 = n)%nat ->
  (forall k v, (a <= k < i)%nat -> nth_error levels k = Some v -> le v t = true) ->
  (forall v, (0 < a)%nat -> nth_error levels (a - 1) = Some v -> le v t = false) ->
  forall x y, In (x, y) (pruns a i ls) <-> (a <= x)%nat /\ maximal_run le levels n t x y.
Proof.
  intros Hn. induction ls as [|w ls IH]; intros a i Es Ha Hi In1 Out1 x y.
  - cbn [length] in Hi. cbn. split.
    + intros [[= <- <-]|[]]. split; [lia|]. split; [lia|]. split; [exact In1|]. split; [exact Out1|]. intros; lia.
    + intros (Hx & (Hxy & M1 & M2 & M3)). left. f_equal.
      * destruct (Nat.eq_dec a x) as [->|N]; [reflexivity|]. exfalso. destruct (nth_error levels (x - 1)) as [v|] eqn:Ev.
        -- specialize (In1 (x - 1)%nat v ltac:(lia) Ev). rewrite (M2 v ltac:(lia) eq_refl) in In1. discriminate.
        -- apply nth_error_None in Ev. lia.
      * destruct (Nat.eq_dec i y) as [->|N]; [reflexivity|]. exfalso. destruct (nth_error levels y) as [v|] eqn:Ev.
        -- specialize (In1 y v ltac:(lia) Ev). rewrite (M3 v ltac:(lia) eq_refl) in In1. discriminate.
        -- apply nth_error_None in Ev. lia.
  - cbn [length] in Hi.
    assert (Ev : nth_error levels i = Some w).
    { rewrite <- (firstn_skipn i levels), <- Es, nth_error_app2, firstn_length by (rewrite firstn_length; lia).
      replace (i - Nat.min i (length levels))%nat with 0%nat by lia. reflexivity. }
    assert (Es' : ls = skipn (S i) levels).
    { apply (f_equal (@tl _)) in Es. cbn [tl] in Es. rewrite Es. apply tl_skipn. }
    cbn [pruns]. destruct (le w t) eqn:El.
    + apply IH; auto; [lia|]. intros k v Hk Hv. destruct (Nat.eq_dec k i) as [->|N]; [congruence|]. eapply In1; [|exact Hv]. lia.
    + cbn. rewrite IH; auto; try lia; [|intros v _ Hv; replace (S i - 1)%nat with i in Hv by lia; congruence]. split.
      * intros [[= <- <-]|[H1 H2]].
        -- split; [lia|]. split; [lia|]. split; [exact In1|]. split; [exact Out1|]. intros v _ Hv. congruence.
        -- split; [lia|exact H2].
      * intros (Hx & HM). pose proof HM as (Hxy & M1 & M2 & M3). destruct (le_lt_dec (S i) x) as [G|G]; [right; auto|]. left.
        assert (x = a).
        { destruct (Nat.eq_dec a x) as [->|N]; [reflexivity|]. exfalso. destruct (nth_error levels (x - 1)) as [v|] eqn:Ev'.
          - specialize (In1 (x - 1)%nat v ltac:(lia) Ev'). rewrite (M2 v ltac:(lia) eq_refl) in In1. discriminate.
          - apply nth_error_None in Ev'. lia. }
        subst x. f_equal. destruct (Nat.lt_trichotomy y i) as [C|[C|C]]; [|congruence|].
        -- exfalso. destruct (nth_error levels y) as [v|] eqn:Ev'.
           ++ specialize (In1 y v ltac:(lia) Ev'). rewrite (M3 v ltac:(lia) eq_refl) in In1. discriminate.
           ++ apply nth_error_None in Ev'. lia.
        -- exfalso. specialize (M1 i w ltac:(lia) Ev). congruence.
Qed.
(** Consecutive runs cover the positions from [a] on without gaps. *)
Lemma pruns_cover {A} (order : list A) ls : forall a i, (a <= i)%nat -> length order = (i + length ls + 1)%nat ->
  concat (map (fun ab => slice order (fst ab) (snd ab)) (pruns a i ls)) = skipn a order.
Proof.
  induction ls as [|v ls IH]; intros a i Ha Hl; cbn [pruns length] in *.
  - cbn. rewrite app_nil_r. unfold slice. apply firstn_all2. rewrite skipn_length. lia.
  - destruct (le v t); [apply IH; lia|]. cbn [map concat fst snd]. rewrite IH by lia. unfold slice.
    replace (skipn (S i) order) with (skipn (i - a + 1) (skipn a order)); [apply firstn_skipn|].
    assert (SS : forall p q (l : list A), skipn p (skipn q l) = skipn (q + p) l).
    { clear. intros p q; induction q; intros [|x l]; cbn; auto. now destruct p. }
    rewrite SS. f_equal. lia.
Qed.
Lemma pruns_range ls : forall a i x y, (a <= i)%nat -> In (x, y) (pruns a i ls) -> (a <= x <= y)%nat /\ (i <= y)%nat /\ (y <= i + length ls)%nat.
Proof.
  induction ls as [|v ls IH]; intros a i x y H; cbn [pruns length].
  - intros [[= <- <-]|[]]. lia.
  - destruct (le v t).
    + intros Hx. apply IH in Hx; lia.
    + intros [[= <- <-]|Hx]; [lia|]. apply IH in Hx; lia.
Qed.
Lemma pruns_sorted ls : forall a i, (a <= i)%nat -> Sorting.Sorted.StronglySorted (fun p q => (snd p < fst q)%nat) (pruns a i ls).
Proof.
  induction ls as [|v ls IH]; intros a i H; cbn [pruns].
  - repeat constructor.
  - destruct (le v t); [apply IH; lia|]. constructor; [apply IH; lia|]. apply Forall_forall. intros [x y] Hx. apply pruns_range in Hx; [|lia]. cbn. lia.
Qed.
Lemma keep_all min_size a i ls : min_size <= 1 -> (a <= i)%nat -> filter (keep min_size) (pruns a i ls) = pruns a i ls.
Proof.
  intros H1 H2. assert (F : forall ab, In ab (pruns a i ls) -> keep min_size ab = true).
  { intros [x y] Hx. apply pruns_range in Hx; [|exact H2]. unfold keep. cbn. lia. }
  revert F. generalize (pruns a i ls). induction l as [|ab l IH]; intros F; cbn; [reflexivity|]. rewrite F by now left. f_equal. apply IH. intros; apply F; now right.
Qed.

(** Runs as lists of objects. *)
Fixpoint split (cur c : list Z) (vs : list D) : list (list Z) :=
  match c, vs with
  | [], _ => []
  | o :: c', v :: vs' => if le v t then split (cur ++ [o]) c' vs' else (cur ++ [o]) :: split [] c' vs'
  | o :: _, [] => [cur ++ [o]]
  end.
Definition runs (c : list Z) (vs : list D) : list (list Z) := split [] c vs.
Lemma split_pruns order : forall ls c pre a i, order = pre ++ c -> length pre = i -> (a <= i)%nat -> length c = S (length ls) ->
  split (skipn a pre) c ls = map (fun ab => slice order (fst ab) (snd ab)) (pruns a i ls).
Proof.
  induction ls as [|v ls IH]; intros [|o c] pre a i E Lp Ha Lc; try discriminate.
  - cbn. destruct c; [|discriminate]. f_equal. rewrite E. unfold slice.
    rewrite skipn_app. replace (a - length pre)%nat with 0%nat by lia. cbn [skipn]. symmetry. apply firstn_all2. rewrite app_length, skipn_length. cbn. lia.
  - cbn [split pruns]. assert (E' : order = (pre ++ [o]) ++ c) by (rewrite <- app_assoc; exact E).
    assert (Es : skipn a pre ++ [o] = skipn a (pre ++ [o])). { rewrite skipn_app. replace (a - length pre)%nat with 0%nat by lia. reflexivity. }
    injection Lc as Lc. destruct (le v t).
    + rewrite Es. apply IH; [exact E'|rewrite app_length; cbn; lia|lia|exact Lc].
    + cbn [map fst snd]. f_equal.
      * rewrite Es, E'. unfold slice. rewrite (skipn_app a (pre ++ [o])). rewrite firstn_app.
        replace (i - a + 1 - length (skipn a (pre ++ [o])))%nat with 0%nat by (rewrite skipn_length, app_length; cbn; lia).
        cbn [firstn]. rewrite app_nil_r. symmetry. apply firstn_all2. rewrite skipn_length, app_length. cbn. lia.
      * rewrite <- (IH c (pre ++ [o]) (S i) (S i)); [|exact E'|rewrite app_length; cbn; lia|lia|exact Lc].
        f_equal. symmetry. apply skipn_all2. rewrite app_length. cbn. lia.
Qed.
Lemma runs_pruns order ls : length order = S (length ls) ->
  runs order ls = map (fun ab => slice order (fst ab) (snd ab)) (pruns 0 0 ls).
Proof. intros H. unfold runs. now rewrite <- (split_pruns order ls order [] 0 0). Qed.
Lemma split_all c vs : (forall v, In v vs -> le v t = true) -> length c = S (length vs) -> forall cur, split cur c vs = [cur ++ c].
Proof.
  revert c; induction vs as [|v vs IH]; intros [|o c] H L cur; try discriminate.
  - destruct c; [reflexivity|discriminate].
  - cbn [split]. rewrite H by now left. rewrite IH; [now rewrite <- app_assoc| |now injection L]. intros; apply H; now right.
Qed.
Lemma split_app c1 v1 mn c2 v2 : length c1 = S (length v1) -> le mn t = false -> forall cur,
  split cur (c1 ++ c2) (v1 ++ mn :: v2) = split cur c1 v1 ++ split [] c2 v2.
Proof.
  revert c1; induction v1 as [|v v1 IH]; intros [|o c1] L H cur; try discriminate.
  - destruct c1; [|discriminate]. cbn. now rewrite H.
  - injection L as L. cbn [app split]. destruct (le v t); [now apply IH|]. cbn. f_equal. now apply IH.
Qed.
Lemma levels_cases vs : (forall v, In v vs -> le v t = true) \/ exists v1 mn v2, vs = v1 ++ mn :: v2 /\ le mn t = false.
Proof.
  induction vs as [|v vs [IH|(v1 & mn & v2 & -> & H)]].
  - left. intros v [].
  - destruct (le v t) eqn:E; [left; intros w [<-|Hw]; auto|]. right. exists [], v, vs. auto.
  - right. exists (v :: v1), mn, v2. auto.
Qed.
Lemma runs_rev k : forall c vs, (length vs <= k)%nat -> length c = S (length vs) -> runs (rev c) (rev vs) = rev (map (@rev Z) (runs c vs)).
Proof.
  induction k as [|k IH]; intros c vs Hk L; unfold runs.
  - destruct vs; [|cbn in Hk; lia]. destruct c as [|o [|]]; try discriminate. reflexivity.
  - destruct (levels_cases vs) as [H|(v1 & mn & v2 & -> & H)].
    + rewrite (split_all c vs H L). rewrite split_all; [reflexivity| |rewrite !rev_length; exact L]. intros v Hv. apply H. now apply in_rev.
    + rewrite app_length in *. cbn [length] in *. rewrite <- (firstn_skipn (S (length v1)) c).
      set (c1 := firstn (S (length v1)) c) in *. set (c2 := skipn (S (length v1)) c) in *.
      assert (L1 : length c1 = S (length v1)) by (unfold c1; rewrite firstn_length; lia).
      assert (L2 : length c2 = S (length v2)) by (unfold c2; rewrite skipn_length; lia).
      rewrite split_app by assumption. rewrite !rev_app_distr. cbn [rev]. rewrite <- app_assoc. cbn [app].
      rewrite split_app; [|rewrite !rev_length; exact L2|exact H]. rewrite map_app, rev_app_distr. f_equal; apply IH; try assumption; lia.
Qed.
End Cut.
End C.
