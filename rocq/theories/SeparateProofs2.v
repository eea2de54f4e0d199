(** * Proofs: clusters of threads, duplicates, uniqueness of the groups. *)
From Coq Require Import QArith Lqa SetoidPermutation SetoidList.
From Verif Require Import Base DistMatrixModel DistMatrixSpec DistMatrixProofs DistPartProofs ClusterModel ClusterSpec ClusterProofs ClusterProofs2 ClusterProofs3 ClusterProofs4 DistModel DistSpec DistProofs2 DistProofs3 DistProofs4 SeparateSpec SeparateProofs.
Open Scope Z_scope.

Lemma matrix_linkage n (d : Z -> Z -> Q) dm t min_size : full 0%Q dm -> mx_m dm = n - 1 -> mx_n dm = n ->
  (forall i j, in_range (n - 1) n i j -> exists v, get_distance 0%Q dm i j = Ok v /\ (v == d i j)%Q) ->
  exists g cs gs, cluster_objects 0%Q qgt qle qavg dm = Ok g /\ dendrogram_cut qle g t min_size = Ok cs /\
    merging d t (map (fun i => [i]) (zrange 0 n)) gs /\
    same_groups cs (filter (fun c => min_size <=? Z.of_nat (length c)) gs).
Proof.
  intros F Em En H2. destruct (linkage_ok dm t F) as (g & gs & EC & MG & SG & Lg); [lia|].
  exists g. eexists. exists gs. split; [exact EC|].
  split; [apply cut_eq; lia|]. rewrite En in MG. split.
  - eapply merging_ext; [| |exact MG].
    + rewrite concat_single. intros x y Hx Hy N. apply zrange_in in Hx, Hy.
      destruct (H2 x y) as (v & Ev & Lv); [unfold in_range; lia|]. unfold dist. rewrite Ev. exact Lv.
    + rewrite concat_single. apply zrange_NoDup.
  - apply sg_sym. eapply sg_trans; [apply sg_filter; [|exact SG]|].
    + intros x y P. rewrite (Permutation_length P). reflexivity.
    + rewrite (runs_pruns qle t) by exact Lg. eapply sg_trans; [|apply sg_perm, Permutation_rev].
      replace (filter _ (map _ _)) with (map (fun ab => slice (dg_order g) (fst ab) (snd ab)) (filter (keep min_size) (pruns qle t 0 0 (dg_levels g)))); [apply sg_refl|].
      assert (R : forall x y, In (x, y) (pruns qle t 0 0 (dg_levels g)) -> (x <= y < length (dg_order g))%nat).
      { intros x y Hx. apply pruns_range in Hx; lia. }
      revert R. generalize (pruns qle t 0 0 (dg_levels g)). induction l as [|[x y] l IH]; intros R; [reflexivity|]. cbn [map filter].
      assert (K : keep min_size (x, y) = (min_size <=? Z.of_nat (length (slice (dg_order g) x y)))).
      { unfold keep, slice. cbn [fst snd]. specialize (R x y (or_introl eq_refl)). rewrite firstn_length, skipn_length. f_equal. lia. }
      cbn [fst snd]. rewrite <- K. destruct (keep min_size (x, y)); cbn [map]; [f_equal|]; apply IH; intros; apply R; now right.
Qed.

Section Threads.
Context {F : Type} (same : F -> F -> bool).
Variable threads : list (nat * list F).
Variable x : nat * list F.
Notation n := (Z.of_nat (length threads)).
Notation apart := (apart same threads x).
Lemma threads_apart dt t min_size : 1 < n <= max_n -> (forall a b, In a threads -> In b threads -> fst a = fst b) ->
  falls_apart n (apart dt) t ->
  exists dm g cs, threads_compare fst (value_of same) threads (n - 1) n dt = Ok dm /\
    cluster_objects 0%Q qgt qle qavg dm = Ok g /\ dendrogram_cut qle g t min_size = Ok cs /\
    groups_of n (near (apart dt) t) min_size cs.
Proof.
  intros Hn Ty FA. destruct (compare_ok fst (value_of same) threads x (n - 1) n dt) as (dm & E & W & Em & En & G); [lia|exact Hn|lia| |].
  { intros a b Ha Hb. rewrite Nat2Z.id, firstn_all in Ha, Hb. auto. }
  rewrite Z.min_id in Em, G.
  destruct (matrix_linkage n (apart dt) dm t min_size) as (g & cs & gs & E2 & E3 & M & SG); [|exact Em|exact En| |].
  - split; [exact W|]. rewrite Em, En. intros i j R. eexists. apply G. exact R.
  - intros i j R. eexists. split; [apply G; exact R|]. reflexivity.
  - exists dm, g, cs. do 3 (split; [assumption|]). destruct (merging_tidy (apart dt) t n FA _ _ M (start_tidy _ t n)) as [T St].
    eapply groups_same; [exact SG|]. now apply tidy_groups.
Qed.
End Threads.

Lemma groups_ext n (r r' : Z -> Z -> Prop) k cs : (forall i j, 0 <= i < n -> 0 <= j < n -> (r i j <-> r' i j)) -> groups_of n r k cs -> groups_of n r' k cs.
Proof.
  intros E (ND & W & M & X). split; [exact ND|]. split; [exact W|]. split.
  - intros c i j Hc Hi Hj. rewrite (M c i j Hc Hi Hj). apply E; [|exact Hj]. destruct (W c Hc) as (_ & _ & R). auto.
  - intros i Hi. rewrite (X i Hi). split; intros (l & N & L & H); exists l; (split; [exact N|]); (split; [exact L|]); intros j Hj; destruct (H j Hj) as [Rj Ej]; (split; [exact Rj|]); apply E; assumption.
Qed.
(** A relation that is symmetric and transitive makes the objects fall apart. *)
Lemma apart_of n d t (r : Z -> Z -> Prop) : (forall i j, 0 <= i < n -> 0 <= j < n -> i <> j -> ((d i j <= t)%Q <-> r i j)) ->
  (forall i j, 0 <= i < n -> 0 <= j < n -> r i j -> r j i) -> (forall i j k, 0 <= i < n -> 0 <= j < n -> 0 <= k < n -> r i j -> r j k -> r i k) ->
  falls_apart n d t /\ forall i j, 0 <= i < n -> 0 <= j < n -> (near d t i j <-> i = j \/ r i j).
Proof.
  intros E Sy Tr. assert (EQ : forall i j, 0 <= i < n -> 0 <= j < n -> (near d t i j <-> i = j \/ r i j)).
  { intros i j Hi Hj. unfold near. destruct (Z.eq_dec i j) as [-> | N]; [tauto|]. rewrite (E i j Hi Hj N). tauto. }
  split; [|exact EQ]. split.
  - intros i j Hi Hj. rewrite (EQ i j Hi Hj), (EQ j i Hj Hi). intros [-> | H]; [now left|right; now apply Sy].
  - intros i j k Hi Hj Hk. rewrite (EQ i j Hi Hj), (EQ j k Hj Hk), (EQ i k Hi Hk). intros [-> | H] [-> | H']; auto. right. eapply (Tr i j k); eassumption.
Qed.

Section Twins.
Context {F : Type} (same : F -> F -> bool).
Notation sm := (fun a b => same a b = true).
Variable threads : list (nat * list F).
Variable x : nat * list F.
Notation n := (Z.of_nat (length threads)).
Notation at_pos := (at_pos threads x).
Lemma at_in i : 0 <= i < n -> In (at_pos i) threads.
Proof. intros H. unfold SeparateSpec.at_pos. apply nth_In. lia. Qed.
Lemma edit_twins tr min_size : partial_equivalence sm -> 1 < n <= max_n -> (forall a b, In a threads -> In b threads -> fst a = fst b /\ fits (snd a) (snd b)) ->
  exists dm g cs, threads_compare fst (value_of same) threads (n - 1) n (edit_type tr) = Ok dm /\
    cluster_objects 0%Q qgt qle qavg dm = Ok g /\ dendrogram_cut qle g 0%Q min_size = Ok cs /\
    groups_of n (fun i j => i = j \/ Forall2 sm (snd (at_pos i)) (snd (at_pos j))) min_size cs.
Proof.
  intros PE Hn Ty. destruct PE as [Sy Tr].
  assert (FS : forall A B, Forall2 sm A B -> Forall2 sm B A) by (induction 1; constructor; auto).
  assert (FT : forall A B C, Forall2 sm A B -> Forall2 sm B C -> Forall2 sm A C).
  { intros A B C H. revert C. induction H; intros C H'; inversion H'; subst; constructor; eauto. }
  destruct (apart_of n (apart same threads x (edit_type tr)) 0%Q (fun i j => Forall2 sm (snd (at_pos i)) (snd (at_pos j)))) as [FA EQ].
  - assert (K : forall i j, 0 <= i < n -> 0 <= j < n -> ((value_of same (edit_type tr) (at_pos i) (at_pos j) <= 0)%Q <-> Forall2 sm (snd (at_pos i)) (snd (at_pos j)))).
    { intros i j Hi Hj. destruct (Ty _ _ (at_in i Hi) (at_in j Hj)) as [T Ft]. unfold value_of.
      destruct (at_pos i) as [ty A], (at_pos j) as [ty' B]. cbn [fst snd] in *. subst ty'.
      destruct (edit_range same tr ty A B Ft) as (v & Ev & R). rewrite Ev.
      rewrite <- (edit_zero same tr ty A B v Ft (fun _ => conj Sy Tr) Ev). split; intros; lra. }
    intros i j Hi Hj N. unfold apart. destruct (Z.min_spec i j) as [[L ->]|[L ->]], (Z.max_spec i j) as [[L' ->]|[L' ->]]; try lia.
    + apply K; assumption.
    + rewrite (K j i Hj Hi). split; apply FS.
  - intros i j _ _. apply FS.
  - intros i j k _ _ _. apply FT.
  - destruct (threads_apart same threads x (edit_type tr) 0%Q min_size Hn) as (dm & g & cs & E1 & E2 & E3 & G); [intros a b Ha Hb; now apply Ty|exact FA|].
    exists dm, g, cs. do 3 (split; [assumption|]). eapply groups_ext; [|exact G]. exact EQ.
Qed.
Lemma jaccard_twins min_size : equivalence sm -> 1 < n <= max_n -> (forall a b, In a threads -> In b threads -> fst a = fst b) ->
  exists dm g cs, threads_compare fst (value_of same) threads (n - 1) n JACCARD = Ok dm /\
    cluster_objects 0%Q qgt qle qavg dm = Ok g /\ dendrogram_cut qle g 0%Q min_size = Ok cs /\
    groups_of n (fun i j => same_frames sm (snd (at_pos i)) (snd (at_pos j))) min_size cs.
Proof.
  intros EV Hn Ty.
  assert (FR : forall A, same_frames sm A A) by (intros A; destruct EV as (Rf & _ & _); split; intros u Hu; exists u; split; auto).
  assert (FS : forall A B, same_frames sm A B -> same_frames sm B A) by (intros A B [H1 H2]; split; assumption).
  assert (FT : forall A B C, same_frames sm A B -> same_frames sm B C -> same_frames sm A C).
  { destruct EV as (Rf & Sy & Tr). intros A B C [H1 H2] [H3 H4]. split; intros u Hu.
    - destruct (H1 u Hu) as (v & Hv & E). destruct (H3 v Hv) as (w & Hw & E'). exists w. split; [exact Hw|]. exact (Tr u v w E E').
    - destruct (H4 u Hu) as (v & Hv & E). destruct (H2 v Hv) as (w & Hw & E'). exists w. split; [exact Hw|]. exact (Tr u v w E E'). }
  destruct (apart_of n (apart same threads x JACCARD) 0%Q (fun i j => same_frames sm (snd (at_pos i)) (snd (at_pos j)))) as [FA EQ].
  - assert (K : forall i j, 0 <= i < n -> 0 <= j < n -> ((value_of same JACCARD (at_pos i) (at_pos j) <= 0)%Q <-> same_frames sm (snd (at_pos i)) (snd (at_pos j)))).
    { intros i j Hi Hj. pose proof (Ty _ _ (at_in i Hi) (at_in j Hj)) as T. unfold value_of, sr_distance. rewrite T, Nat.eqb_refl. cbn [negb].
      rewrite <- (jaccard_zero same EV). pose proof (jaccard_range same EV (snd (at_pos i)) (snd (at_pos j))). split; intros; lra. }
    intros i j Hi Hj N. unfold apart. destruct (Z.min_spec i j) as [[L ->]|[L ->]], (Z.max_spec i j) as [[L' ->]|[L' ->]]; try lia.
    + apply K; assumption.
    + rewrite (K j i Hj Hi). split; apply FS.
  - intros i j _ _. apply FS.
  - intros i j k _ _ _. apply FT.
  - destruct (threads_apart same threads x JACCARD 0%Q min_size Hn Ty FA) as (dm & g & cs & E1 & E2 & E3 & G).
    exists dm, g, cs. do 3 (split; [assumption|]). eapply groups_ext; [|exact G]. intros i j Hi Hj. cbn beta. rewrite (EQ i j Hi Hj). split; [intros [-> | H]; auto|auto].
Qed.
End Twins.

(** The groups are determined by the relation. *)
Lemma nodup_heads (c : list Z) a y u : NoDup (concat (c :: a)) -> In y a -> In u c -> In u y -> False.
Proof.
  cbn [concat]. intros ND Hy Hu Hv. assert (Hc : In u (concat a)) by (apply in_concat; eauto).
  induction c as [|w c IH]; [destruct Hu|]. cbn in ND. apply NoDup_cons_iff in ND as [N1 N2]. destruct Hu as [-> | Hu]; [apply N1, in_or_app; now right|auto].
Qed.
Lemma cover_same : forall a b : list (list Z), NoDup (concat a) -> NoDup (concat b) -> (forall c, In c a -> c <> []) -> (forall c, In c b -> c <> []) ->
  (forall c, In c a -> exists c', In c' b /\ Permutation c c') -> (forall c, In c b -> exists c', In c' a /\ Permutation c c') -> same_groups a b.
Proof.
  induction a as [|c a IH]; intros b Na Nb Ea Eb H1 H2.
  - destruct b as [|c b]; [constructor|]. destruct (H2 c (or_introl eq_refl)) as (? & [] & _).
  - destruct (H1 c (or_introl eq_refl)) as (c' & Hc' & P). apply in_split in Hc' as (b1 & b2 & ->).
    assert (PB : Permutation (b1 ++ c' :: b2) (c' :: b1 ++ b2)) by (symmetry; apply Permutation_middle).
    assert (Nb' : NoDup (concat (c' :: b1 ++ b2))) by (eapply Permutation_NoDup; [apply concat_perm; exact PB|exact Nb]).
    eapply sg_trans; [|apply sg_perm; symmetry; exact PB]. constructor; [exact P|]. apply IH.
    + cbn [concat] in Na. now apply NoDup_app_remove_l in Na.
    + cbn [concat] in Nb'. now apply NoDup_app_remove_l in Nb'.
    + intros z Hz. apply Ea. now right.
    + intros z Hz. apply Eb. eapply Permutation_in; [symmetry; exact PB|now right].
    + intros z Hz. destruct (H1 z (or_intror Hz)) as (z' & Hz' & Pz). exists z'. split; [|exact Pz].
      apply (Permutation_in _ PB) in Hz'. destruct Hz' as [<- | Hz']; [|exact Hz']. exfalso.
      destruct z as [|u z]; [now apply (Ea [] (or_intror Hz))|]. eapply (nodup_heads c a (u :: z) u Na Hz); [|now left].
      eapply Permutation_in; [symmetry; exact P|]. eapply Permutation_in; [exact Pz|now left].
    + intros z Hz. assert (Hz0 : In z (b1 ++ c' :: b2)) by (eapply Permutation_in; [symmetry; exact PB|now right]).
      destruct (H2 z Hz0) as (z' & Hz' & Pz). exists z'. split; [|exact Pz]. destruct Hz' as [<- | Hz']; [|exact Hz']. exfalso.
      destruct z as [|u z]; [now apply (Eb [] Hz0)|]. eapply (nodup_heads c' (b1 ++ b2) (u :: z) u Nb' Hz); [|now left].
      eapply Permutation_in; [exact P|]. eapply Permutation_in; [exact Pz|now left].
Qed.
Lemma nodup_member (cs : list (list Z)) c : NoDup (concat cs) -> In c cs -> NoDup c.
Proof. induction cs as [|g gs IH]; intros ND Hc; [destruct Hc|]. cbn [concat] in ND. destruct Hc as [-> | Hc]; [now apply NoDup_app_remove_r in ND|apply NoDup_app_remove_l in ND; auto]. Qed.
Lemma groups_unique n r k a b : groups_of n r k a -> groups_of n r k b -> same_groups a b.
Proof.
  assert (H : forall a b, groups_of n r k a -> groups_of n r k b -> forall c, In c a -> exists c', In c' b /\ Permutation c c').
  { clear a b. intros a b (ND & W & M & X) (ND' & W' & M' & X') c Hc. destruct (W c Hc) as (N & L & R). destruct c as [|u c]; [congruence|].
    assert (Ru : 0 <= u < n) by (apply R; now left).
    destruct (proj2 (X' u Ru) (proj1 (X u Ru) (ex_intro _ _ (conj Hc (or_introl eq_refl))))) as (c' & Hc' & Hu). exists c'. split; [exact Hc'|].
    destruct (W' c' Hc') as (_ & _ & R'). apply NoDup_Permutation; [exact (nodup_member a _ ND Hc)|exact (nodup_member b _ ND' Hc')|].
    intros y. split; intros Hy.
    - apply (M' c' u y Hc' Hu (R y Hy)), (M (u :: c) u y Hc (or_introl eq_refl) (R y Hy)), Hy.
    - apply (M (u :: c) u y Hc (or_introl eq_refl) (R' y Hy)), (M' c' u y Hc' Hu (R' y Hy)), Hy. }
  intros Ga Gb. apply cover_same; [exact (proj1 Ga)|exact (proj1 Gb)|intros c Hc; now apply (proj1 (proj2 Ga))|intros c Hc; now apply (proj1 (proj2 Gb))|exact (H a b Ga Gb)|exact (H b a Gb Ga)].
Qed.
