(** * Proofs: objects that fall apart are clustered into their groups. *)
From Coq Require Import QArith Lqa SetoidPermutation SetoidList.
From Verif Require Import Base DistMatrixModel DistMatrixSpec DistMatrixProofs DistPartProofs ClusterModel ClusterSpec ClusterProofs ClusterProofs2 ClusterProofs3 ClusterProofs4 SeparateSpec.
Open Scope Z_scope.

Lemma sum_le l t : (forall v, In v l -> (v <= t)%Q) -> (sumQ l <= t * inject_Z (Z.of_nat (length l)))%Q.
Proof.
  induction l as [|v l IH]; intros H; [change (0 <= t * 0)%Q; lra|]. rewrite sumQ_cons. cbn [length]. rewrite Nat2Z.inj_succ, <- Z.add_1_r, inject_Z_plus.
  specialize (IH (fun u Hu => H u (or_intror Hu))). specialize (H v (or_introl eq_refl)). change (inject_Z 1) with 1%Q. lra.
Qed.
Lemma sum_lt l t : l <> [] -> (forall v, In v l -> (t < v)%Q) -> (t * inject_Z (Z.of_nat (length l)) < sumQ l)%Q.
Proof.
  induction l as [|v l IH]; intros N H; [congruence|]. rewrite sumQ_cons. cbn [length]. rewrite Nat2Z.inj_succ, <- Z.add_1_r, inject_Z_plus. change (inject_Z 1) with 1%Q.
  pose proof (H v (or_introl eq_refl)). destruct l as [|w l]; [change (t * (0 + 1) < v + 0)%Q; lra|].
  specialize (IH ltac:(discriminate) (fun u Hu => H u (or_intror Hu))). lra.
Qed.
Lemma pairs_length (d : Z -> Z -> Q) h g : length (flat_map (fun x => map (d x) h) g) = (length g * length h)%nat.
Proof. induction g as [|x g IH]; [reflexivity|]. cbn [flat_map length]. rewrite app_length, map_length, IH. reflexivity. Qed.
Lemma count_pos (g : list Z) : g <> [] -> (0 < count g)%Q.
Proof. intros N. unfold count. replace 0%Q with (inject_Z 0) by reflexivity. rewrite <- Zlt_Qlt. destruct g; [congruence|cbn; lia]. Qed.
Lemma pairs_count (d : Z -> Z -> Q) g h : (inject_Z (Z.of_nat (length (flat_map (fun x => map (d x) h) g))) == count g * count h)%Q.
Proof. rewrite pairs_length, Nat2Z.inj_mul, inject_Z_mult. reflexivity. Qed.
Lemma pairs_in (d : Z -> Z -> Q) g h v : In v (flat_map (fun x => map (d x) h) g) -> exists x y, In x g /\ In y h /\ v = d x y.
Proof. intros H. apply in_flat_map in H as (x & Hx & H). apply in_map_iff in H as (y & <- & Hy). eauto. Qed.

Section Apart.
Variable d : Z -> Z -> Q.
Variable t : Q.
Lemma link_le g h : g <> [] -> h <> [] -> (forall x y, In x g -> In y h -> (d x y <= t)%Q) -> (link d g h <= t)%Q.
Proof.
  intros Ng Nh H. pose proof (count_pos g Ng). pose proof (count_pos h Nh). unfold link.
  assert (P : (0 < count g * count h)%Q) by (apply Qmult_lt_0_compat; assumption).
  apply Qle_shift_div_r; [exact P|]. rewrite <- (pairs_count d). apply sum_le. intros v Hv. apply pairs_in in Hv as (x & y & Hx & Hy & ->). auto.
Qed.
Lemma link_gt g h : g <> [] -> h <> [] -> (forall x y, In x g -> In y h -> (t < d x y)%Q) -> (t < link d g h)%Q.
Proof.
  intros Ng Nh H. pose proof (count_pos g Ng). pose proof (count_pos h Nh). unfold link.
  assert (P : (0 < count g * count h)%Q) by (apply Qmult_lt_0_compat; assumption).
  apply Qlt_shift_div_l; [exact P|]. rewrite <- (pairs_count d). apply sum_lt.
  - destruct g; [congruence|]. destruct h; [congruence|]. discriminate.
  - intros v Hv. apply pairs_in in Hv as (x & y & Hx & Hy & ->). auto.
Qed.
Lemma link_some g h : g <> [] -> h <> [] -> (link d g h <= t)%Q -> exists x y, In x g /\ In y h /\ (d x y <= t)%Q.
Proof.
  intros Ng Nh H.
  destruct (existsb (fun x => existsb (fun y => Qle_bool (d x y) t) h) g) eqn:E.
  - apply existsb_exists in E as (x & Hx & E). apply existsb_exists in E as (y & Hy & E). apply Qle_bool_iff in E. eauto.
  - exfalso. apply (Qlt_irrefl t). eapply Qlt_le_trans; [|exact H]. apply link_gt; auto. intros x y Hx Hy. apply Qnot_le_lt. intros L. apply Qle_bool_iff in L.
    rewrite (proj2 (existsb_exists _ _)) in E; [discriminate|]. exists x. split; [exact Hx|]. apply existsb_exists. eauto.
Qed.

Variable n : Z.
Hypothesis FA : falls_apart n d t.
Definition tidy (gs : list (list Z)) : Prop :=
  NoDup (concat gs) /\ (forall x, In x (concat gs) <-> 0 <= x < n) /\ (forall g, In g gs -> g <> []) /\
  (forall g x y, In g gs -> In x g -> In y g -> near d t x y).
Lemma concat_perm (a b : list (list Z)) : Permutation a b -> Permutation (concat a) (concat b).
Proof. induction 1; cbn; [constructor|now apply Permutation_app_head|rewrite !app_assoc; apply Permutation_app_tail, Permutation_app_comm|etransitivity; eassumption]. Qed.
Lemma tidy_perm a b : Permutation a b -> tidy a -> tidy b.
Proof.
  intros P (ND & R & N & H). pose proof (concat_perm _ _ P) as PC. split; [eapply Permutation_NoDup; eassumption|]. split; [|split].
  - intros x. rewrite <- R. split; apply Permutation_in; [now symmetry|assumption].
  - intros g Hg. apply N. eapply Permutation_in; [symmetry; exact P|exact Hg].
  - intros g x y Hg. apply H. eapply Permutation_in; [symmetry; exact P|exact Hg].
Qed.
Lemma tidy_in gs g x : tidy gs -> In g gs -> In x g -> 0 <= x < n.
Proof. intros (_ & R & _) Hg Hx. apply R. apply in_concat. eauto. Qed.
Lemma disjoint_heads (g h : list Z) rest x : NoDup (concat (g :: h :: rest)) -> In x g -> In x h -> False.
Proof.
  cbn [concat]. intros ND Hx Hy. rewrite app_assoc in ND. apply NoDup_app_remove_r in ND.
  induction g as [|u g IH]; [destruct Hx|]. cbn in ND. apply NoDup_cons_iff in ND as [N1 N2]. destruct Hx as [->|Hx]; [apply N1, in_or_app; now right|auto].
Qed.
Lemma tidy_cross gs g h rest x y u v : tidy gs -> Permutation gs (g :: h :: rest) -> In x g -> In y h -> near d t x y -> In u g -> In v h -> (d u v <= t)%Q.
Proof.
  intros T P Hx Hy Nxy Hu Hv. apply (tidy_perm _ _ P) in T. destruct FA as [Sy Tr].
  assert (In g (g :: h :: rest)) as Ig by now left. assert (In h (g :: h :: rest)) as Ih by (right; now left).
  pose proof (tidy_in _ _ _ T Ig Hx). pose proof (tidy_in _ _ _ T Ih Hy). pose proof (tidy_in _ _ _ T Ig Hu). pose proof (tidy_in _ _ _ T Ih Hv).
  destruct T as (ND & R & N & H').
  assert (Nuv : near d t u v) .
  { apply (Tr u x v); try assumption; [exact (H' g u x Ig Hu Hx)|]. apply (Tr x y v); try assumption. exact (H' h y v Ih Hy Hv). }
  destruct Nuv as [-> | Nuv]; [exfalso; eapply disjoint_heads; eassumption|exact Nuv].
Qed.
Lemma tidy_merge gs g h gh rest : tidy gs -> Permutation gs (g :: h :: rest) -> (link d g h <= t)%Q -> Permutation gh (g ++ h) -> tidy (gh :: rest).
Proof.
  intros T P L PG. pose proof (tidy_perm _ _ P T) as T'. pose proof T' as (ND & R & N & H).
  destruct (link_some g h) as (x & y & Hx & Hy & Lxy); [apply N; now left|apply N; right; now left|exact L|].
  assert (X : forall u v, In u g -> In v h -> (d u v <= t)%Q) by (intros; eapply tidy_cross; [exact T|exact P|exact Hx|exact Hy|now right|assumption|assumption]).
  assert (PC : Permutation (concat (g :: h :: rest)) (concat (gh :: rest))).
  { cbn [concat]. rewrite app_assoc. apply Permutation_app_tail. now symmetry. }
  split; [eapply Permutation_NoDup; eassumption|]. split; [|split].
  - intros z. rewrite <- R. split; apply Permutation_in; [now symmetry|assumption].
  - intros z [<- | Hz]; [|apply N; right; now right]. intros ->. apply Permutation_nil in PG. destruct g; [|discriminate]. destruct Hx.
  - intros z u v [<- | Hz] Hu Hv; [|eapply H; [right; right; exact Hz|exact Hu|exact Hv]].
    assert (Iu : In u (g ++ h)) by (eapply Permutation_in; eassumption). assert (Iv : In v (g ++ h)) by (eapply Permutation_in; eassumption).
    assert (Ru : 0 <= u < n) by (apply R; cbn [concat]; rewrite app_assoc; apply in_or_app; now left).
    assert (Rv : 0 <= v < n) by (apply R; cbn [concat]; rewrite app_assoc; apply in_or_app; now left).
    apply in_app_or in Iu, Iv. destruct Iu as [Iu | Iu], Iv as [Iv | Iv].
    + eapply H; [left; reflexivity|exact Iu|exact Iv].
    + right. auto.
    + apply (proj1 FA); auto. right. auto.
    + eapply H; [right; left; reflexivity|exact Iu|exact Iv].
Qed.
Lemma merging_tidy gs gs' : merging d t gs gs' -> tidy gs -> tidy gs' /\ forall g h rest, Permutation gs' (g :: h :: rest) -> (t < link d g h)%Q.
Proof. induction 1 as [gs St|gs g h gh rest gs' P Lt Mn Pg M IH]; intros T; [split; [exact T|exact St]|]. apply IH. eapply tidy_merge; eassumption. Qed.

(** The groups at the end are the groups of near objects. *)
Lemma final_groups gs : tidy gs -> (forall g h rest, Permutation gs (g :: h :: rest) -> (t < link d g h)%Q) ->
  forall g x y, In g gs -> In x g -> 0 <= y < n -> (In y g <-> near d t x y).
Proof.
  intros T St g x y Hg Hx Hy. split; [intros Hy'; destruct T as (_ & _ & _ & H); eapply H; eassumption|]. intros Nxy.
  pose proof T as (ND & R & N & H). apply R in Hy as Hy'. apply in_concat in Hy' as (h & Hh & Hy').
  destruct (in_split _ _ Hg) as (l1 & l2 & E).
  assert (P : Permutation gs (g :: l1 ++ l2)) by (rewrite E; symmetry; apply Permutation_middle).
  assert (Hh' : In h (g :: l1 ++ l2)) by (eapply Permutation_in; eassumption). destruct Hh' as [-> | Hh']; [exact Hy'|].
  destruct (in_split _ _ Hh') as (l3 & l4 & E').
  assert (P' : Permutation gs (g :: h :: l3 ++ l4)).
  { rewrite P, E'. apply perm_skip. symmetry. apply Permutation_middle. }
  exfalso. apply (Qlt_irrefl t). eapply Qlt_le_trans; [eapply St; exact P'|]. apply link_le; [apply N; exact Hg|apply N; exact Hh|].
  intros u v Hu Hv. eapply tidy_cross; [exact T|exact P'|exact Hx|exact Hy'|exact Nxy|exact Hu|exact Hv].
Qed.
Lemma start_tidy : tidy (map (fun i => [i]) (zrange 0 n)).
Proof.
  unfold tidy. rewrite concat_single. split; [apply zrange_NoDup|]. split; [intros x; apply zrange_in|]. split.
  - intros g Hg. apply in_map_iff in Hg as (i & <- & _). discriminate.
  - intros g x y Hg Hx Hy. apply in_map_iff in Hg as (i & <- & _). destruct Hx as [<- | []], Hy as [<- | []]. now left.
Qed.
Lemma filter_NoDup_concat (f : list Z -> bool) gs : NoDup (concat gs) -> NoDup (concat (filter f gs)).
Proof.
  induction gs as [|g gs IH]; intros ND; [constructor|]. cbn [filter concat] in *.
  assert (ND2 : NoDup (concat gs)) by (now apply NoDup_app_remove_l in ND). destruct (f g); [|auto]. cbn [concat].
  assert (Sub : forall x, In x (concat (filter f gs)) -> In x (concat gs)).
  { intros x Hx. apply in_concat in Hx as (c & Hc & Hx). apply filter_In in Hc as [Hc _]. apply in_concat. eauto. }
  specialize (IH ND2). clear ND2. induction g as [|u g IHg]; [exact IH|]. cbn in ND |- *. apply NoDup_cons_iff in ND as [N1 N2]. constructor; [|auto].
  intros Hu. apply N1. apply in_app_or in Hu as [Hu | Hu]; apply in_or_app; auto.
Qed.
Lemma tidy_groups gs min_size : tidy gs -> (forall g h rest, Permutation gs (g :: h :: rest) -> (t < link d g h)%Q) ->
  groups_of n (near d t) min_size (filter (fun c => min_size <=? Z.of_nat (length c)) gs).
Proof.
  intros T St. pose proof (final_groups gs T St) as Fin. pose proof T as (ND & R & N & H).
  split; [now apply filter_NoDup_concat|]. split; [|split].
  - intros c Hc. apply filter_In in Hc as [Hc L]. split; [now apply N|]. split; [lia|]. intros x Hx. eapply tidy_in; eassumption.
  - intros c x y Hc. apply filter_In in Hc as [Hc L]. now apply Fin.
  - intros x Hx. split.
    + intros (c & Hc & Hxc). apply filter_In in Hc as [Hc L]. exists c. split; [|split; [lia|]].
      * clear - ND Hc. induction gs as [|g gs IH]; [destruct Hc|]. cbn [concat] in ND. destruct Hc as [-> | Hc]; [now apply NoDup_app_remove_r in ND|apply NoDup_app_remove_l in ND; auto].
      * intros y Hy. split; [eapply tidy_in; eassumption|]. eapply H; eassumption.
    + intros (l & Nl & Ll & Hl). apply R in Hx as Hx'. apply in_concat in Hx' as (c & Hc & Hxc). exists c. split; [|exact Hxc].
      apply filter_In. split; [exact Hc|]. assert (incl l c) as I.
      { intros y Hy. destruct (Hl y Hy) as [Ry Ny]. apply (Fin c x y Hc Hxc Ry). exact Ny. }
      pose proof (NoDup_incl_length Nl I). lia.
Qed.
End Apart.

Lemma sg_concat a b : same_groups a b -> Permutation (concat a) (concat b).
Proof.
  induction 1 as [|x y l l' E P IH|x y l|]; cbn; [constructor| | |etransitivity; eassumption].
  - now apply Permutation_app.
  - rewrite !app_assoc. apply Permutation_app_tail, Permutation_app_comm.
Qed.
Lemma sg_in a b : same_groups a b -> forall c, In c a -> exists c', In c' b /\ Permutation c c'.
Proof.
  induction 1 as [|x y l l' E P IH|x y l|l1 l2 l3 P1 IH1 P2 IH2]; intros c Hc.
  - destruct Hc.
  - destruct Hc as [<- | Hc]; [exists y; split; [now left|exact E]|]. destruct (IH c Hc) as (c' & H1 & H2). exists c'. split; [now right|exact H2].
  - exists c. split; [|reflexivity]. destruct Hc as [<- | [<- | Hc]]; cbn; auto.
  - destruct (IH1 c Hc) as (c' & H1 & H2). destruct (IH2 c' H1) as (c'' & H3 & H4). exists c''. split; [exact H3|etransitivity; eassumption].
Qed.
Lemma groups_same n r k a b : same_groups a b -> groups_of n r k b -> groups_of n r k a.
Proof.
  intros S' (ND & W & M & X). pose proof (sg_concat _ _ S') as PC. pose proof (sg_in _ _ S') as I1. pose proof (sg_in _ _ (sg_sym _ _ S')) as I2.
  split; [eapply Permutation_NoDup; [symmetry; exact PC|exact ND]|]. split; [|split].
  - intros c Hc. destruct (I1 c Hc) as (c' & Hc' & P). destruct (W c' Hc') as (N & L & R). split; [intros ->; apply Permutation_nil in P; congruence|].
    split; [rewrite (Permutation_length P); exact L|]. intros x Hx. apply R. eapply Permutation_in; eassumption.
  - intros c x y Hc Hx Hy. destruct (I1 c Hc) as (c' & Hc' & P). rewrite <- (M c' x y Hc'); [|eapply Permutation_in; eassumption|exact Hy].
    split; apply Permutation_in; [exact P|now symmetry].
  - intros x Hx. rewrite <- (X x Hx). split; intros (c & Hc & Hxc).
    + destruct (I1 c Hc) as (c' & Hc' & P). exists c'. split; [exact Hc'|]. eapply Permutation_in; eassumption.
    + destruct (I2 c Hc) as (c' & Hc' & P). exists c'. split; [exact Hc'|]. eapply Permutation_in; eassumption.
Qed.

Lemma history_apart n (d : Z -> Z -> Q) hist t min_size : 1 < n <= max_n ->
  Forall (fun s => in_range (n - 1) n (fst (fst s)) (snd (fst s))) hist ->
  (forall i j, in_range (n - 1) n i j -> exists v, last_set hist i j = Some v /\ (v == d i j)%Q) ->
  falls_apart n d t ->
  exists d0 dm g cs, distances_new Q (n - 1) n = Ok d0 /\
    fold_res (fun d s => set_distance d (fst (fst s)) (snd (fst s)) (snd s)) hist d0 = Ok dm /\
    cluster_objects 0%Q qgt qle qavg dm = Ok g /\ dendrogram_cut qle g t min_size = Ok cs /\
    groups_of n (near d t) min_size cs.
Proof.
  intros Hn H1 H2 FA. destruct (history_linkage n d hist t min_size Hn H1 H2) as (d0 & dm & g & cs & gs & E0 & E1 & E2 & E3 & M & SG).
  exists d0, dm, g, cs. do 4 (split; [assumption|]). destruct (merging_tidy d t n FA _ _ M (start_tidy d t n)) as [T St].
  eapply groups_same; [exact SG|]. now apply tidy_groups.
Qed.
