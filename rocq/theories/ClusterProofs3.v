(** * Lemmas about clustering: average linkage over the rational numbers. *)
From Coq Require Import QArith SetoidPermutation Lqa Setoid.
From Verif Require Import Base DistMatrixModel DistMatrixSpec DistMatrixProofs ClusterModel ClusterSpec ClusterProofs ClusterProofs2.
Open Scope Z_scope.

(** ** Sums and averages *)
Lemma sumQ_cons x l : sumQ (x :: l) = (x + sumQ l)%Q. Proof. reflexivity. Qed.
Lemma sumQ_nil : sumQ [] = 0%Q. Proof. reflexivity. Qed.
Lemma sumQ_app a b : (sumQ (a ++ b) == sumQ a + sumQ b)%Q.
Proof. induction a as [|x a IH]; cbn [app]; [rewrite sumQ_nil; ring|]. rewrite !sumQ_cons, IH. ring. Qed.
Lemma sumQ_perm a b : Permutation a b -> (sumQ a == sumQ b)%Q.
Proof. induction 1; rewrite ?sumQ_cons; [reflexivity|rewrite IHPermutation; reflexivity|ring|etransitivity; eassumption]. Qed.
Section L.
Variable d : Z -> Z -> Q.
Definition total (g h : list Z) : Q := sumQ (flat_map (fun x => map (d x) h) g).
Lemma total_app_l g1 g2 h : (total (g1 ++ g2) h == total g1 h + total g2 h)%Q.
Proof. unfold total. rewrite flat_map_app. apply sumQ_app. Qed.
Lemma total_cons x g h : (total (x :: g) h == sumQ (map (d x) h) + total g h)%Q.
Proof. unfold total. cbn [flat_map]. apply sumQ_app. Qed.
Lemma total_app_r g h1 h2 : (total g (h1 ++ h2) == total g h1 + total g h2)%Q.
Proof.
  induction g as [|x g IH]; [unfold total; cbn [flat_map]; rewrite sumQ_nil; ring|]. rewrite !total_cons, IH, map_app, sumQ_app. ring.
Qed.
Lemma total_perm g g' h h' : Permutation g g' -> Permutation h h' -> (total g h == total g' h')%Q.
Proof.
  intros P1 P2. transitivity (total g h').
  - clear P1. induction g as [|x g IH]; [reflexivity|]. rewrite !total_cons, IH. rewrite (sumQ_perm _ _ (Permutation_map (d x) P2)). reflexivity.
  - unfold total. apply sumQ_perm. now apply Permutation_flat_map.
Qed.
Lemma total_sym g h : (forall x y, (d x y == d y x)%Q) -> (total g h == total h g)%Q.
Proof.
  intros S. induction g as [|x g IH].
  - induction h as [|y h IH]; [reflexivity|]. rewrite total_cons, <- IH. unfold total. cbn [flat_map map]. rewrite sumQ_nil. ring.
  - rewrite total_cons, IH. change (x :: g) with ([x] ++ g). rewrite total_app_r.
    assert (E : (sumQ (map (d x) h) == total h [x])%Q); [|rewrite E; reflexivity]. clear IH.
    induction h as [|y h IH]; [reflexivity|]. rewrite total_cons, <- IH. cbn [map]. rewrite !sumQ_cons, sumQ_nil, (S y x). ring.
Qed.
Lemma link_eq g h : (link d g h == total g h / (count g * count h))%Q.
Proof. reflexivity. Qed.
Lemma count_pos g : g <> [] -> (0 < count g)%Q.
Proof. intros H. unfold count, Qlt. cbn. destruct g; [congruence|]. cbn [length]. lia. Qed.
Lemma count_app g h : (count (g ++ h) == count g + count h)%Q.
Proof. unfold count. rewrite app_length, Nat2Z.inj_add, inject_Z_plus. reflexivity. Qed.
Lemma count_perm g h : Permutation g h -> (count g == count h)%Q.
Proof. intros P. unfold count. rewrite (Permutation_length P). reflexivity. Qed.
Lemma link_sym g h : (forall x y, (d x y == d y x)%Q) -> (link d g h == link d h g)%Q.
Proof. intros S. rewrite !link_eq, (total_sym g h S). rewrite (Qmult_comm (count g)). reflexivity. Qed.
Lemma link_perm g g' h h' : Permutation g g' -> Permutation h h' -> (link d g h == link d g' h')%Q.
Proof. intros P1 P2. rewrite !link_eq, (total_perm _ _ _ _ P1 P2), (count_perm _ _ P1), (count_perm _ _ P2). reflexivity. Qed.
Lemma link_app g h1 h2 : g <> [] -> h1 <> [] -> h2 <> [] ->
  (link d g (h1 ++ h2) == (link d g h1 * count h1 + link d g h2 * count h2) / (count h1 + count h2))%Q.
Proof.
  intros N N1 N2. rewrite !link_eq, total_app_r, count_app. apply count_pos in N, N1, N2.
  field. repeat split; lra.
Qed.
Lemma link_single x y : (link d [x] [y] == d x y)%Q.
Proof. unfold link, count. cbn [flat_map map app length]. rewrite sumQ_cons, sumQ_nil. change (inject_Z (Z.of_nat 1)) with 1%Q. field. Qed.
End L.

(** ** Lists of groups *)
Lemma perm_front2 {A} (a b c : list A) x y : Permutation (a ++ x :: b ++ y :: c) (x :: y :: a ++ b ++ c).
Proof.
  rewrite <- (Permutation_middle a (b ++ y :: c) x). constructor. rewrite app_assoc, <- (Permutation_middle (a ++ b) c y). constructor. now rewrite app_assoc.
Qed.
Lemma perm_two {A} (l : list A) x y rest : Permutation l (x :: y :: rest) ->
  exists i j, i <> j /\ nth_error l i = Some x /\ nth_error l j = Some y.
Proof.
  intros P. assert (Hx : In x l) by (eapply Permutation_in; [symmetry; exact P|now left]).
  apply in_split in Hx as (l1 & l2 & ->). rewrite <- Permutation_middle in P. apply Permutation_cons_inv in P.
  assert (Hy : In y (l1 ++ l2)) by (eapply Permutation_in; [symmetry; exact P|now left]).
  exists (length l1). apply in_app_or in Hy as [Hy|Hy]; apply In_nth_error in Hy as (k & Hk).
  - assert (k < length l1)%nat by (apply nth_error_Some; congruence). exists k. split; [lia|].
    split; [rewrite nth_error_app2, Nat.sub_diag by lia; reflexivity|]. now rewrite nth_error_app1.
  - exists (length l1 + S k)%nat. split; [lia|]. split; [rewrite nth_error_app2, Nat.sub_diag by lia; reflexivity|].
    rewrite nth_error_app2 by lia. replace (length l1 + S k - length l1)%nat with (S k) by lia. exact Hk.
Qed.
Lemma filter_split {A} (f : A -> bool) l : Permutation l (filter f l ++ filter (fun x => negb (f x)) l).
Proof.
  induction l as [|x l IH]; cbn; [constructor|]. destruct (f x); cbn; [now constructor|].
  rewrite <- Permutation_middle. now constructor.
Qed.
#[local] Instance perm_equiv : Equivalence (@Permutation Z) := Permutation_Equivalence Z.
Lemma sg_refl a : same_groups a a.
Proof. unfold same_groups. reflexivity. Qed.
Lemma sg_sym a b : same_groups a b -> same_groups b a.
Proof. unfold same_groups. intros H. now symmetry. Qed.
Lemma sg_trans a b c : same_groups a b -> same_groups b c -> same_groups a c.
Proof. unfold same_groups. intros H1 H2. now transitivity b. Qed.
Lemma sg_perm a b : Permutation a b -> same_groups a b.
Proof.
  unfold same_groups. induction 1; [constructor|constructor; [reflexivity|assumption]|apply permA_swap|]. eapply permA_trans; eassumption.
Qed.
Lemma sg_app a a' b b' : same_groups a a' -> same_groups b b' -> same_groups (a ++ b) (a' ++ b').
Proof.
  unfold same_groups. intros H1 H2. revert b b' H2. induction H1; intros b b' H2.
  - exact H2.
  - cbn. constructor; auto.
  - cbn. eapply permA_trans; [apply permA_swap|]. constructor; [reflexivity|]. constructor; [reflexivity|].
    clear - H2. induction l; cbn; [exact H2|]. constructor; [reflexivity|assumption].
  - eapply permA_trans; [apply IHPermutationA1; exact H2|]. apply IHPermutationA2. reflexivity.
Qed.
Lemma sg_map_rev a : same_groups (map (@rev Z) a) a.
Proof. unfold same_groups. induction a; cbn; constructor; [symmetry; apply Permutation_rev|assumption]. Qed.
Lemma sg_filter (f : list Z -> bool) a b : (forall x y, Permutation x y -> f x = f y) -> same_groups a b -> same_groups (filter f a) (filter f b).
Proof.
  unfold same_groups. intros H. induction 1; cbn.
  - constructor.
  - rewrite (H _ _ H0). destruct (f x₂); [constructor; assumption|assumption].
  - destruct (f x), (f y); try reflexivity. apply permA_swap.
  - eapply permA_trans; eassumption.
Qed.
Lemma merging_perm d t gs1 gs2 gs' : Permutation gs1 gs2 -> merging d t gs2 gs' -> exists gs'', merging d t gs1 gs'' /\ Permutation gs'' gs'.
Proof.
  intros P M. destruct M.
  - exists gs1. split; [|exact P]. apply m_stop. intros g h rest P'. eapply H. rewrite <- P. exact P'.
  - exists gs'. split; [|reflexivity]. eapply m_merge; [rewrite P; eassumption|eassumption| |eassumption|eassumption].
    intros g' h' rest' P'. eapply H1. rewrite <- P. exact P'.
Qed.

(** ** The loop *)
Lemma qle_true a b : qle a b = true <-> (a <= b)%Q.
Proof. apply Qle_bool_iff. Qed.
Lemma qle_false a b : qle a b = false <-> (b < a)%Q.
Proof.
  unfold qle. split; intros H.
  - apply Qnot_le_lt. intros H'. apply Qle_bool_iff in H'. congruence.
  - destruct (Qle_bool a b) eqn:E; [|reflexivity]. apply Qle_bool_iff in E. lra.
Qed.

Section Loop.
Variables (distances : matrix Q) (t : Q).
Notation zero := 0%Q.
Hypothesis F : full zero distances.
Hypothesis Hm : mx_m distances + 1 = mx_n distances.
Definition dist (x y : Z) : Q := match get_distance zero distances x y with Ok v => v | _ => 0%Q end.
Lemma dist_sym x y : (dist x y == dist y x)%Q.
Proof. unfold dist. rewrite get_sym. reflexivity. Qed.

Notation pt := (list Z * list Q)%type.
Definition linked (s : cstate) (V : list pt) : Prop :=
  forall i j p q, i <> j -> nth_error V i = Some p -> nth_error V j = Some q -> fst p <> [] -> fst q <> [] ->
  exists v, get_distance zero (s_distances s) (Z.of_nat i) (Z.of_nat j) = Ok v /\ (v == link dist (fst p) (fst q))%Q.
Definition groups (V : list pt) : list (list Z) := map fst (live V).
Definition rns (p : pt) : list (list Z) := runs qle t (fst p) (snd p).
Definition all_runs (V : list pt) : list (list Z) := flat_map rns V.

Lemma groups_two V g h rest : Permutation (groups V) (g :: h :: rest) ->
  exists i j p q, i <> j /\ nth_error V i = Some p /\ nth_error V j = Some q /\ fst p = g /\ fst q = h /\ g <> [] /\ h <> [].
Proof.
  intros P. unfold groups in P. symmetry in P. apply Permutation_map_inv in P as (l & El & P). destruct l as [|p [|q l]]; try discriminate. injection El as -> -> El.
  assert (P' : Permutation V (p :: q :: l ++ filter (fun x => negb (alive x)) V)).
  { rewrite (filter_split alive V) at 1. fold (live V). rewrite P. reflexivity. }
  destruct (perm_two _ _ _ _ P') as (i & j & N & Ei & Ej). exists i, j, p, q. repeat (split; [assumption || reflexivity|]).
  assert (A : forall x, In x (live V) -> fst x <> []) by (intros x Hx; apply alive_true; apply filter_In in Hx; tauto).
  split; apply A; (eapply Permutation_in; [symmetry; exact P|]); [now left|right; now left].
Qed.
Lemma active_nth V i : active (map (@fst (list Z) (list Q)) V) (Z.of_nat i) <-> exists p, nth_error V i = Some p /\ fst p <> [].
Proof.
  unfold active. split.
  - intros (c & E & N). apply load_nth in E as [_ E]. rewrite Nat2Z.id, nth_error_map in E. destruct (nth_error V i) as [p|]; [|discriminate]. injection E as <-. eauto.
  - intros (p & E & N). exists (fst p). split; [|exact N]. apply load_nth. split; [lia|]. rewrite Nat2Z.id, nth_error_map, E. reflexivity.
Qed.
Lemma flip_perm (p q : pt) : flip p q -> Permutation (fst p) (fst q).
Proof. intros [->| ->]; [reflexivity|apply Permutation_rev]. Qed.
Lemma nth_mid {A} (a b : list A) x : nth_error (a ++ x :: b) (length a) = Some x.
Proof. rewrite nth_error_app2, Nat.sub_diag by lia. reflexivity. Qed.
Lemma nth_mid2 {A} (a b c : list A) x y : nth_error (a ++ x :: b ++ y :: c) (length a + 1 + length b) = Some y.
Proof. rewrite nth_error_app2 by lia. replace (length a + 1 + length b - length a)%nat with (S (length b)) by lia. cbn. apply nth_mid. Qed.
Lemma nth_swap {A} (a b c : list A) x y x' y' i : i <> length a -> i <> (length a + 1 + length b)%nat ->
  nth_error (a ++ x' :: b ++ y' :: c) i = nth_error (a ++ x :: b ++ y :: c) i.
Proof.
  intros N1 N2. destruct (le_lt_dec (length a) i) as [G|G]; [|rewrite !nth_error_app1 by lia; reflexivity].
  rewrite !nth_error_app2 by lia. destruct (i - length a)%nat as [|k] eqn:E; [lia|]. cbn.
  destruct (le_lt_dec (length b) k) as [G'|G']; [|rewrite !nth_error_app1 by lia; reflexivity].
  rewrite !nth_error_app2 by lia. destruct (k - length b)%nat as [|k'] eqn:E'; [lia|]. reflexivity.
Qed.

(** One round: a closest pair of groups is merged; the distances stay the average distances. *)
Lemma step_linked s V k : inv zero distances s V -> linked s V -> length (live V) = S (S k) ->
  exists s' A B C p1 p2 q1 q2 mn,
    merge_once zero qgt qle qavg distances s = Ok s' /\
    V = A ++ p1 :: B ++ p2 :: C /\ fst p1 <> [] /\ fst p2 <> [] /\ flip p1 q1 /\ flip p2 q2 /\
    (let V' := A ++ (fst q1 ++ fst q2, snd q1 ++ mn :: snd q2) :: B ++ ([], []) :: C in
     inv zero distances s' V' /\ linked s' V' /\ length (live V') = S k) /\
    (mn == link dist (fst p1) (fst p2))%Q /\
    (forall g h rest, Permutation (groups V) (g :: h :: rest) -> (mn <= link dist g h)%Q).
Proof.
  intros I LK L.
  destruct (merge_once_ok zero qgt qle qavg Qle distances s V) as (s' & A & B & C & p1 & p2 & q1 & q2 & mn & E & EV & N1 & N2 & F1 & F2 & I' & Hc1 & Emn & Emin & G1 & G2); auto.
  { apply Qle_refl. } { apply Qle_trans. }
  { intros a b H. unfold qgt in H. apply negb_true_iff in H. apply qle_false in H. lra. }
  { intros a b H. unfold qgt in H. apply negb_false_iff in H. now apply qle_true. }
  { eapply live_two; eassumption. }
  exists s', A, B, C, p1, p2, q1, q2, mn. repeat (split; [assumption|]).
  pose proof I as (_ & _ & _ & _ & LV & _).
  assert (LVn : length V = (length A + 1 + length B + 1 + length C)%nat).
  { rewrite EV, !app_length. cbn [length]. rewrite app_length. cbn [length]. lia. }
  assert (Nq1 : fst q1 <> []) by (eapply flip_alive; eassumption).
  assert (Nq2 : fst q2 <> []) by (eapply flip_alive; eassumption).
  assert (E1 : nth_error V (length A) = Some p1) by (rewrite EV; apply nth_mid).
  assert (E2 : nth_error V (length A + 1 + length B) = Some p2) by (rewrite EV; apply nth_mid2).
  split; [|split].
  - split; [exact I'|]. split.
    + assert (Main : forall i p, i <> length A -> nth_error (A ++ (fst q1 ++ fst q2, snd q1 ++ mn :: snd q2) :: B ++ ([], []) :: C) i = Some p -> fst p <> [] ->
        exists v, get_distance zero (s_distances s') (Z.of_nat i) (Z.of_nat (length A)) = Ok v /\ (v == link dist (fst p) (fst q1 ++ fst q2))%Q).
      { intros i p Ni Ei Np.
        destruct (Nat.eq_dec i (length A + 1 + length B)) as [->|Ni2]; [rewrite nth_mid2 in Ei; injection Ei as <-; now cbn in Np|].
        rewrite (nth_swap A B C p1 p2) in Ei by assumption. rewrite <- EV in Ei.
        assert (Hi : (i < length V)%nat) by (apply nth_error_Some; congruence).
        destruct (G1 (Z.of_nat i)) as (v0 & v1 & X0 & X1 & X2); try lia.
        { apply active_nth. eauto. }
        destruct (LK i (length A) p p1) as (w0 & Y0 & Z0); auto. destruct (LK i (length A + 1 + length B)%nat p p2) as (w1 & Y1 & Z1); auto.
        rewrite X0 in Y0. rewrite X1 in Y1. injection Y0 as <-. injection Y1 as <-.
        eexists. split; [exact X2|].
        rewrite (link_perm dist (fst p) (fst p) (fst q1 ++ fst q2) (fst p1 ++ fst p2)); [|reflexivity|apply Permutation_app; symmetry; apply flip_perm; assumption].
        rewrite link_app by assumption. unfold qavg. rewrite Z0, Z1. unfold size. rewrite inject_Z_plus. reflexivity. }
      intros i j p q Nij Ei Ej Np Nq.
      destruct (Nat.eq_dec i (length A)) as [->|Ni].
      * rewrite nth_mid in Ei. injection Ei as <-. cbn [fst] in *. destruct (Main j q) as (v & Ev & Lv); auto.
        exists v. split; [rewrite get_sym; exact Ev|]. rewrite Lv. apply link_sym, dist_sym.
      * destruct (Nat.eq_dec j (length A)) as [->|Nj].
        -- rewrite nth_mid in Ej. injection Ej as <-. apply Main; auto.
        -- destruct (Nat.eq_dec i (length A + 1 + length B)) as [->|Ni2]; [rewrite nth_mid2 in Ei; injection Ei as <-; now cbn in Np|].
           destruct (Nat.eq_dec j (length A + 1 + length B)) as [->|Nj2]; [rewrite nth_mid2 in Ej; injection Ej as <-; now cbn in Nq|].
           rewrite (nth_swap A B C p1 p2) in Ei, Ej by assumption. rewrite <- EV in Ei, Ej.
           rewrite G2 by lia. apply LK; assumption.
    + destruct (live_step A B C p1 p2 (fst q1 ++ fst q2, snd q1 ++ mn :: snd q2) N1 N2) as [X1 X2].
      { cbn. destruct (fst q1); [congruence|discriminate]. }
      rewrite EV, X1 in L. rewrite X2. rewrite !app_length in *. cbn [length] in *. rewrite !app_length in *. cbn [length] in *. lia.
  - destruct (LK (length A) (length A + 1 + length B)%nat p1 p2) as (v & Ev & Lv); auto; [lia|]. rewrite Emn in Ev. injection Ev as <-. exact Lv.
  - intros g h rest P. destruct (groups_two V g h rest P) as (i & j & p & q & Nij & Ei & Ej & <- & <- & Np & Nq).
    assert (Hi : (i < length V)%nat) by (apply nth_error_Some; congruence).
    assert (Hj : (j < length V)%nat) by (apply nth_error_Some; congruence).
    destruct (LK i j p q) as (v & Ev & Lv); auto. rewrite <- Lv.
    destruct (Nat.lt_total i j) as [C1|[C1|C1]]; [|congruence|].
    + apply (Emin (Z.of_nat i) (Z.of_nat j)); try (apply active_nth; eauto); try lia. exact Ev.
    + rewrite get_sym in Ev. apply (Emin (Z.of_nat j) (Z.of_nat i)); try (apply active_nth; eauto); try lia. exact Ev.
Qed.

Lemma flip_length (p q : pt) n : flip p q -> length (fst p) = S n -> length (snd p) = n -> length (fst q) = S (length (snd q)).
Proof. intros [->| ->]; cbn; rewrite ?rev_length; lia. Qed.
Lemma flip_runs (p q : pt) : flip p q -> length (fst p) = S (length (snd p)) -> same_groups (rns p) (rns q).
Proof.
  intros [->| ->] H; [apply sg_refl|]. unfold rns. cbn [fst snd]. rewrite (runs_rev qle t (length (snd p))) by (auto; lia).
  apply sg_sym. eapply sg_trans; [apply sg_perm; symmetry; apply Permutation_rev|]. apply sg_map_rev.
Qed.
Lemma inv_lengths s V p : inv zero distances s V -> In p V -> fst p <> [] -> length (fst p) = S (length (snd p)).
Proof.
  intros (_ & _ & I3 & _) Hp N. rewrite Forall_forall in I3. specialize (I3 p Hp). apply levels_of_length in I3. destruct (fst p); [congruence|]. cbn in *. lia.
Qed.

(** Once all groups are more than [t] apart, later rounds do not change the runs. *)
Lemma phase2 k : forall s V, inv zero distances s V -> linked s V -> length (live V) = S k ->
  (forall g h rest, Permutation (groups V) (g :: h :: rest) -> (t < link dist g h)%Q) ->
  exists s' V', merge_times zero qgt qle qavg distances k s = Ok s' /\ inv zero distances s' V' /\ length (live V') = 1%nat /\
    same_groups (all_runs V) (all_runs V').
Proof.
  induction k as [|k IH]; intros s V I LK L Far; [exists s, V; split; [reflexivity|]; split; [exact I|]; split; [exact L|apply sg_refl]|].
  destruct (step_linked s V k I LK L) as (s1 & A & B & C & p1 & p2 & q1 & q2 & mn & E & EV & N1 & N2 & F1 & F2 & (I' & LK' & L') & Emn & Emin).
  set (V' := A ++ (fst q1 ++ fst q2, snd q1 ++ mn :: snd q2) :: B ++ ([], []) :: C) in *.
  assert (Nq1 : fst q1 <> []) by (eapply flip_alive; eassumption).
  destruct (live_step A B C p1 p2 (fst q1 ++ fst q2, snd q1 ++ mn :: snd q2) N1 N2) as [X1 X2].
  { cbn. destruct (fst q1); [congruence|discriminate]. }
  fold V' in X2.
  assert (PG : Permutation (groups V) (fst p1 :: fst p2 :: map fst (live A ++ live B ++ live C))).
  { unfold groups. rewrite EV, X1. rewrite (perm_front2 (live A)). reflexivity. }
  assert (PG' : Permutation (groups V') ((fst q1 ++ fst q2) :: map fst (live A ++ live B ++ live C))).
  { unfold groups. rewrite X2. rewrite <- (Permutation_middle (live A)). reflexivity. }
  assert (Tmn : (t < mn)%Q) by (rewrite Emn; eapply Far; exact PG).
  destruct (IH s1 V' I' LK' L') as (s' & V'' & E' & I'' & L'' & SG).
  { (* averages of numbers above t are above t *)
    assert (Avg : forall h, In h (map fst (live A ++ live B ++ live C)) -> (t < link dist (fst q1 ++ fst q2) h)%Q).
    { intros h Hh. assert (Nh : h <> []).
      { apply in_map_iff in Hh as (x & <- & Hx). apply alive_true. rewrite !in_app_iff in Hx. unfold live in Hx. rewrite !filter_In in Hx. tauto. }
      rewrite (link_sym dist) by apply dist_sym.
      rewrite (link_perm dist h h (fst q1 ++ fst q2) (fst p1 ++ fst p2)); [|reflexivity|apply Permutation_app; symmetry; apply flip_perm; assumption].
      rewrite link_app by assumption. apply count_pos in N1, N2.
      apply in_split in Hh as (l1 & l2 & El).
      assert (T1 : (t < link dist h (fst p1))%Q).
      { rewrite link_sym by apply dist_sym. eapply (Far _ _ (fst p2 :: l1 ++ l2)). rewrite PG, El. constructor. rewrite <- (Permutation_middle l1). apply perm_swap. }
      assert (T2 : (t < link dist h (fst p2))%Q).
      { rewrite link_sym by apply dist_sym. eapply (Far _ _ (fst p1 :: l1 ++ l2)). rewrite PG, El, <- (Permutation_middle l1).
        rewrite perm_swap. constructor. apply perm_swap. }
      apply Qlt_shift_div_l; [lra|]. nra. }
    intros g h rest P. rewrite PG' in P.
    destruct (perm_two _ _ _ _ P) as (i & j & Nij & Ei & Ej).
    destruct i as [|i], j as [|j]; cbn in Ei, Ej; try congruence.
    - injection Ei as <-. apply Avg. eapply nth_error_In; eassumption.
    - injection Ej as <-. rewrite link_sym by apply dist_sym. apply Avg. eapply nth_error_In; eassumption.
    - assert (exists rest', Permutation (map fst (live A ++ live B ++ live C)) (g :: h :: rest')) as (rest' & P').
      { destruct (Nat.lt_total i j) as [G|[G|G]]; [|congruence|].
        - destruct (nth_split2 _ i j g h G Ei Ej) as (a & b & c & -> & _). eexists. apply perm_front2.
        - destruct (nth_split2 _ j i h g G Ej Ei) as (a & b & c & -> & _). eexists. rewrite perm_front2. apply perm_swap. }
      eapply (Far _ _ (fst p1 :: fst p2 :: rest')). rewrite PG, P'. clear.
      transitivity (fst p1 :: g :: fst p2 :: h :: rest'); [constructor; apply perm_swap|].
      rewrite perm_swap. constructor. transitivity (fst p1 :: h :: fst p2 :: rest'); [constructor; apply perm_swap|]. apply perm_swap. }
  exists s', V''. cbn [merge_times]. rewrite E. cbn [bind]. split; [exact E'|]. split; [exact I''|]. split; [exact L''|].
  eapply sg_trans; [|exact SG]. unfold all_runs. subst V'. rewrite EV. rewrite !flat_map_app. cbn [flat_map]. rewrite !flat_map_app. cbn [flat_map].
  apply sg_app; [apply sg_refl|].
  assert (Len1 : length (fst p1) = S (length (snd p1))). { eapply inv_lengths; [exact I| |exact N1]. rewrite EV. apply in_or_app; right; now left. }
  assert (Len2 : length (fst p2) = S (length (snd p2))). { eapply inv_lengths; [exact I| |exact N2]. rewrite EV. apply in_or_app; right; right. apply in_or_app; right; now left. }
  assert (ER : rns (fst q1 ++ fst q2, snd q1 ++ mn :: snd q2) = rns q1 ++ rns q2).
  { unfold rns, runs. cbn [fst snd]. apply split_app; [eapply flip_length; eauto|]. apply qle_false. exact Tmn. }
  rewrite ER. change (rns ([], [])) with (@nil (list Z)). cbn [app].
  eapply sg_trans; [apply sg_app; [apply (flip_runs p1 q1 F1 Len1)|apply sg_app; [apply sg_refl|apply sg_app; [apply (flip_runs p2 q2 F2 Len2)|apply sg_refl]]]|].
  rewrite <- app_assoc. apply sg_app; [apply sg_refl|]. apply sg_perm. apply Permutation_app_swap_app.
Qed.

Lemma all_runs_low s V : inv zero distances s V -> (forall p v, In p V -> In v (snd p) -> (v <= t)%Q) -> all_runs V = groups V.
Proof.
  intros I Low. unfold all_runs, groups. pose proof (fun p => inv_lengths s V p I) as Len. clear I.
  induction V as [|p V IH]; [reflexivity|]. cbn [flat_map live filter]. unfold live in *.
  assert (IH' : flat_map rns V = map fst (filter alive V)). { apply IH; [intros; eapply Low; eauto; now right|intros; apply Len; auto; now right]. }
  rewrite IH'. destruct (alive p) eqn:Ap.
  - cbn [map]. unfold rns, runs. rewrite split_all; [reflexivity| |].
    + intros v Hv. apply qle_true. eapply Low; [now left|exact Hv].
    + apply Len; [now left|]. now apply alive_true.
  - unfold rns, runs, alive in *. destruct (fst p); [reflexivity|discriminate].
Qed.
Lemma phase1 k : forall s V, inv zero distances s V -> linked s V -> length (live V) = S k ->
  (forall p v, In p V -> In v (snd p) -> (v <= t)%Q) ->
  exists s' V' gs', merge_times zero qgt qle qavg distances k s = Ok s' /\ inv zero distances s' V' /\ length (live V') = 1%nat /\
    merging dist t (groups V) gs' /\ same_groups gs' (all_runs V').
Proof.
  induction k as [|k IH]; intros s V I LK L Low.
  - exists s, V, (groups V). repeat (split; [assumption || reflexivity|]). split.
    + apply m_stop. intros g h rest P. exfalso. apply Permutation_length in P. unfold groups in P. rewrite map_length, L in P. discriminate.
    + rewrite (all_runs_low s V I Low). apply sg_refl.
  - destruct (step_linked s V k I LK L) as (s1 & A & B & C & p1 & p2 & q1 & q2 & mn & E & EV & N1 & N2 & F1 & F2 & (I' & LK' & L') & Emn & Emin).
    destruct (Qlt_le_dec t mn) as [Tmn|Tmn].
    + destruct (phase2 (S k) s V I LK L) as (s' & V' & E' & I'' & L'' & SG).
      { intros g h rest P. eapply Qlt_le_trans; [exact Tmn|]. eapply Emin; exact P. }
      exists s', V', (groups V). split; [exact E'|]. split; [exact I''|]. split; [exact L''|]. split.
      * apply m_stop. intros g h rest P. eapply Qlt_le_trans; [exact Tmn|]. eapply Emin; exact P.
      * rewrite <- (all_runs_low s V I Low). exact SG.
    + set (V' := A ++ (fst q1 ++ fst q2, snd q1 ++ mn :: snd q2) :: B ++ ([], []) :: C) in *.
      assert (Nq1 : fst q1 <> []) by (eapply flip_alive; eassumption).
      destruct (live_step A B C p1 p2 (fst q1 ++ fst q2, snd q1 ++ mn :: snd q2) N1 N2) as [X1 X2].
      { cbn. destruct (fst q1); [congruence|discriminate]. }
      fold V' in X2.
      assert (PG : Permutation (groups V) (fst p1 :: fst p2 :: map fst (live A ++ live B ++ live C))).
      { unfold groups. rewrite EV, X1. rewrite (perm_front2 (live A)). reflexivity. }
      assert (PG' : Permutation (groups V') ((fst q1 ++ fst q2) :: map fst (live A ++ live B ++ live C))).
      { unfold groups. rewrite X2. rewrite <- (Permutation_middle (live A)). reflexivity. }
      destruct (IH s1 V' I' LK' L') as (s' & V'' & gs' & E' & I'' & L'' & MG & SG).
      { assert (FS : forall (p q : pt) v, flip p q -> In v (snd q) -> In v (snd p)).
        { intros p q v [->| ->]; [auto|]. cbn. apply in_rev. }
        intros p v Hp Hv. rewrite EV in Low. unfold V' in Hp. apply in_app_or in Hp as [Hp|[<-|Hp]]; [eapply Low; [|exact Hv]; apply in_or_app; now left| |].
        - cbn in Hv. apply in_app_or in Hv as [Hv|[<-|Hv]].
          + apply (Low p1); [apply in_or_app; right; now left|]. eapply FS; eassumption.
          + exact Tmn.
          + apply (Low p2); [apply in_or_app; right; right; apply in_or_app; right; now left|]. eapply FS; eassumption.
        - apply in_app_or in Hp as [Hp|[<-|Hp]]; [|destruct Hv|]; (eapply Low; [|exact Hv]; apply in_or_app; right; right; apply in_or_app); [now left|right; now right]. }
      symmetry in PG'. destruct (merging_perm _ _ _ _ _ PG' MG) as (gs'' & MG' & P'').
      exists s', V'', gs''. cbn [merge_times]. rewrite E. cbn [bind]. repeat (split; [assumption|]). split.
      * eapply m_merge; [exact PG|rewrite <- Emn; exact Tmn| | |exact MG'].
        -- intros g' h' rest' P. rewrite <- Emn. eapply Emin; exact P.
        -- apply Permutation_app; symmetry; apply flip_perm; assumption.
      * eapply sg_trans; [apply sg_perm; exact P''|exact SG].
Qed.

Lemma linkage_ok : exists g gs', cluster_objects zero qgt qle qavg distances = Ok g /\
  merging dist t (map (fun i => [i]) (zrange 0 (mx_n distances))) gs' /\ same_groups gs' (runs qle t (dg_order g) (dg_levels g)) /\
  length (dg_order g) = S (length (dg_levels g)).
Proof.
  destruct (start_inv zero distances F) as (I & El & Ll).
  destruct (phase1 (Z.to_nat (mx_n distances - 1)) (start distances) (start_view distances) I) as (s & V & gs' & E & I' & L' & MG & SG).
  - intros i j p q Nij Ei Ej _ _. unfold start_view in Ei, Ej. rewrite nth_error_map in Ei, Ej. cbn [start s_distances].
    destruct (nth_error (zrange 0 (mx_n distances)) i) as [x|] eqn:Ex; [|discriminate].
    destruct (nth_error (zrange 0 (mx_n distances)) j) as [y|] eqn:Ey; [|discriminate].
    injection Ei as <-. injection Ej as <-. cbn [fst].
    assert (NZ : forall k z, nth_error (zrange 0 (mx_n distances)) k = Some z -> z = Z.of_nat k /\ z < mx_n distances).
    { intros k z Hz. unfold zrange in Hz. rewrite nth_error_map in Hz. destruct (nth_error (seq 0 (Z.to_nat (mx_n distances - 0))) k) as [w|] eqn:Ew; [|discriminate].
      injection Hz as <-. assert (Hk : (k < length (seq 0 (Z.to_nat (mx_n distances - 0))))%nat) by (apply nth_error_Some; congruence).
      rewrite seq_length in Hk. apply (nth_error_nth _ _ 0%nat) in Ew. rewrite seq_nth in Ew by exact Hk. lia. }
    destruct (NZ _ _ Ex) as [-> Hx]. destruct (NZ _ _ Ey) as [-> Hy].
    destruct F as [W F']. destruct (F' (Z.of_nat i) (Z.of_nat j)) as (v & Ev); [unfold in_range; lia|].
    exists v. split; [exact Ev|]. rewrite link_single. unfold dist. rewrite Ev. reflexivity.
  - now rewrite El.
  - intros p v Hp Hv. apply in_map_iff in Hp as (x & <- & _). destruct Hv.
  - destruct (result_ok zero qgt qle qavg distances s V F I' L' E) as (p & V' & EV & Q & EC & P & L).
    eexists _, gs'. split; [exact EC|]. cbn [dg_order dg_levels]. split; [|split].
    + replace (groups (start_view distances)) with (map (fun i => [i]) (zrange 0 (mx_n distances))) in MG; [exact MG|].
      unfold groups. rewrite El. unfold start_view. rewrite map_map. reflexivity.
    + replace (all_runs V) with (runs qle t (fst p) (snd p)) in SG; [exact SG|]. rewrite EV. unfold all_runs. cbn [flat_map].
      replace (flat_map rns V') with (@nil (list Z)); [rewrite app_nil_r; reflexivity|]. clear - Q.
      induction V' as [|q V' IH]; [reflexivity|]. cbn. unfold rns at 1, runs. rewrite Q by now left. cbn. apply IH. intros; apply Q; now right.
    + apply Permutation_length in P. rewrite zrange_length in P. lia.
Qed.
End Loop.
