(** * Proofs about scaled edit distances, Jaccard and Jaro-Winkler. *)
From Coq Require Import QArith Lqa.
From Verif Require Import Base DistMatrixModel DistMatrixSpec DistMatrixProofs DistPartProofs DistModel DistSpec DistProofs.
Open Scope Z_scope.

(** ** Edit distances *)
Section EditFacts.
Context {F : Type} (same : F -> F -> Prop) (swap : Prop).
Notation edits := (edits same swap).
Lemma edits_max a : forall b, edits a b (Nat.max (length a) (length b)).
Proof.
  induction a as [|x a IH]; intros b; [apply edits_nil_l|]. destruct b as [|y b]; [rewrite Nat.max_0_r; apply edits_nil_r|].
  cbn. apply e_change. apply IH.
Qed.
Lemma edits_0 a b : edits a b 0 <-> Forall2 same a b.
Proof.
  split.
  - intros H. remember O as k. induction H; try discriminate; constructor; auto.
  - induction 1; [constructor | apply e_keep; assumption].
Qed.
Lemma edits_disjoint a b k : edits a b k -> (forall x y, In x a -> In y b -> ~ same x y) -> (length a <= k)%nat /\ (length b <= k)%nat.
Proof.
  induction 1; intros D; cbn in *.
  - lia.
  - exfalso. eapply (D x y); auto.
  - destruct IHedits as [? ?]; [intros; apply D; auto | lia].
  - destruct IHedits as [? ?]; [intros; apply D; auto | lia].
  - destruct IHedits as [? ?]; [intros; apply D; auto | lia].
  - exfalso. eapply (D x1 y2); auto.
Qed.
Lemma edits_sym : (forall x y, same x y -> same y x) -> forall a b k, edits a b k -> edits b a k.
Proof.
  intros Hs a b k H. induction H; [apply e_done | apply e_keep | apply e_change | apply e_insert | apply e_delete | apply e_swap]; auto.
Qed.
End EditFacts.
Lemma edits_swap_mono {F} (same : F -> F -> Prop) (P Q : Prop) a b k : (P -> Q) -> edits same P a b k -> edits same Q a b k.
Proof. intros H. induction 1; [apply e_done | apply e_keep | apply e_change | apply e_delete | apply e_insert | apply e_swap]; auto. Qed.

Lemma minimal_unique {F} (same : F -> F -> Prop) P a b k k' : minimal_edits same P a b k -> minimal_edits same P a b k' -> k = k'.
Proof. intros [H1 H2] [H3 H4]. specialize (H2 _ H3). specialize (H4 _ H1). lia. Qed.

(** Result of the code in terms of edit scripts. *)
Lemma lev_minimal {F} (same : F -> F -> bool) tr A B :
  Z.of_nat (length A) + Z.of_nat (length B) + 3 <= int_max -> (A <> [] \/ B <> []) ->
  (tr = true -> partial_equivalence (fun x y => same x y = true)) ->
  exists k, lev_counts same tr A B = Ok (Some (Z.of_nat k, Z.max (Z.of_nat (length A)) (Z.of_nat (length B)))) /\
    minimal_edits (fun x y => same x y = true) (tr = true) A B k.
Proof.
  intros Hl Hne PER. rewrite lev_counts_ok by assumption.
  destruct (ed_best same tr PER _ (rev A) (rev B) (le_n _)) as (k & E & H1 & H2). exists k. rewrite E. split; [reflexivity|].
  split.
  - apply edits_rev in H1. rewrite !rev_involutive in H1. exact H1.
  - intros k' H. apply H2. apply edits_rev. exact H.
Qed.
Lemma lev_empty {F} (same : F -> F -> bool) tr : lev_counts same tr [] [] = Ok None.
Proof. reflexivity. Qed.
(** The transposition variant never exceeds the plain one, for any comparison. *)
Lemma ed_tr_le {F} (same : F -> F -> bool) : forall s ra rb, (length ra + length rb <= s)%nat -> 0 <= ed same true ra rb <= ed same false ra rb.
Proof.
  induction s as [|s IH]; intros ra rb Hs.
  { destruct ra, rb; cbn in Hs; try lia. rewrite !ed_nil_l. cbn; lia. }
  destruct ra as [|x ra1]; [rewrite !ed_nil_l; lia|]. destruct rb as [|y rb1]; [rewrite !ed_nil_r; lia|].
  rewrite !ed_eq. cbn [length] in Hs.
  pose proof (IH ra1 rb1 ltac:(lia)). pose proof (IH (x :: ra1) rb1 ltac:(cbn; lia)). pose proof (IH ra1 (y :: rb1) ltac:(cbn; lia)).
  destruct (same x y).
  - destruct ra1 as [|x2 ra2]; [lia|]. destruct rb1 as [|y2 rb2]; [lia|].
    cbn in Hs. pose proof (IH ra2 rb2 ltac:(lia)). destruct (_ && _ && _) eqn:C; [|lia].
    rewrite <- andb_assoc in C. apply andb_prop in C as [C _]. lia.
  - rewrite !min3_eq. destruct ra1 as [|x2 ra2]; [lia|]. destruct rb1 as [|y2 rb2]; [lia|].
    cbn in Hs. pose proof (IH ra2 rb2 ltac:(lia)). destruct (_ && _ && _) eqn:C; [|lia].
    rewrite <- andb_assoc in C. apply andb_prop in C as [C _]. lia.
Qed.
Lemma lev_range {F} (same : F -> F -> bool) tr A B :
  Z.of_nat (length A) + Z.of_nat (length B) + 3 <= int_max -> (A <> [] \/ B <> []) ->
  exists r k, lev_counts same tr A B = Ok (Some (r, k)) /\ 0 <= r <= k /\ k = Z.max (Z.of_nat (length A)) (Z.of_nat (length B)).
Proof.
  intros Hl Hne. rewrite lev_counts_ok by assumption. do 2 eexists. split; [reflexivity|]. split; [|reflexivity].
  destruct (ed_best same false ltac:(discriminate) _ (rev A) (rev B) (le_n _)) as (k & E & H1 & H2).
  assert (Hk : (k <= Nat.max (length A) (length B))%nat).
  { apply H2. pose proof (edits_max (fun x y => same x y = true) (false = true) (rev A) (rev B)) as K. rewrite !rev_length in K. exact K. }
  pose proof (ed_tr_le same _ (rev A) (rev B) (le_n _)). destruct tr; lia.
Qed.
Lemma minimal_zero {F} (same : F -> F -> Prop) P a b k : minimal_edits same P a b k -> (k = 0%nat <-> Forall2 same a b).
Proof.
  intros [H1 H2]. split; [intros ->; apply edits_0 in H1; exact H1|]. intros H. apply (edits_0 same P) in H. specialize (H2 _ H). lia.
Qed.
Lemma minimal_disjoint {F} (same : F -> F -> Prop) P a b k : minimal_edits same P a b k ->
  (forall x y, In x a -> In y b -> ~ same x y) -> k = Nat.max (length a) (length b).
Proof.
  intros [H1 H2] D. pose proof (edits_disjoint _ _ _ _ _ H1 D). pose proof (H2 _ (edits_max same P a b)). lia.
Qed.
Lemma minimal_sym {F} (same : F -> F -> Prop) P a b k : (forall x y, same x y -> same y x) ->
  minimal_edits same P a b k -> minimal_edits same P b a k.
Proof. intros S [H1 H2]. split; [apply edits_sym; assumption|]. intros k' H. apply H2. apply edits_sym; assumption. Qed.

(** ** Counting up to an equivalence *)
Section Count.
Context {F : Type} (same : F -> F -> bool).
Notation sameP := (fun x y => same x y = true).
Lemma pigeon (PS : forall x y, sameP x y -> sameP y x) (PT : forall x y z, sameP x y -> sameP y z -> sameP x z) r1 :
  forall r2, no_repeats sameP r1 -> (forall x, In x r1 -> exists y, In y r2 /\ sameP x y) -> (length r1 <= length r2)%nat.
Proof.
  induction r1 as [|x r1 IH]; intros r2 N H; [cbn; lia|]. inversion N as [|? ? N1 N2]; subst.
  destruct (H x (or_introl eq_refl)) as (y & Hy & Sy). apply in_split in Hy as (l1 & l2 & ->).
  rewrite app_length. cbn [length]. assert (length r1 <= length (l1 ++ l2))%nat; [|rewrite app_length in *; lia].
  apply IH; [exact N2|]. intros z Hz. destruct (H z (or_intror Hz)) as (w & Hw & Sw). exists w. split; [|exact Sw].
  apply in_app_iff. apply in_app_iff in Hw as [Hw|[<-|Hw]]; [left; exact Hw| |right; exact Hw].
  exfalso. apply (N1 z Hz). eapply PT; [exact Sy|]. apply PS. exact Sw.
Qed.
Fixpoint lasts (l : list F) : list F :=
  match l with [] => [] | f :: r => if contains same r f then lasts r else f :: lasts r end.
Lemma second_lasts l : jaccard_second same l = Z.of_nat (length (lasts l)).
Proof. induction l as [|f r IH]; [reflexivity|]. cbn. destruct (contains same r f); [exact IH|]. cbn [length]. lia. Qed.
Lemma first_lasts l l2 : jaccard_first same l l2 = (Z.of_nat (length (lasts l)), Z.of_nat (length (filter (contains same l2) (lasts l)))).
Proof.
  induction l as [|f r IH]; [reflexivity|]. cbn. rewrite IH. destruct (contains same r f); [reflexivity|]. cbn [filter].
  destruct (contains same l2 f); cbn [length]; f_equal; lia.
Qed.
Lemma lasts_in l x : In x (lasts l) -> In x l.
Proof. induction l as [|f r IH]; [auto|]. cbn. destruct (contains same r f); [intros; right; auto|]. intros [->|H]; [left; auto | right; auto]. Qed.
Context (EQ : equivalence sameP).
Let ER : forall x, sameP x x := proj1 EQ.
Let ES : forall x y, sameP x y -> sameP y x := proj1 (proj2 EQ).
Let ET : forall x y z, sameP x y -> sameP y z -> sameP x z := proj2 (proj2 EQ).
Lemma contains_occurs l x : contains same l x = true <-> occurs sameP x l.
Proof.
  unfold contains, occurs. rewrite existsb_exists. split; intros (y & H & S); exists y; split; auto; apply ES; exact S.
Qed.
Lemma lasts_norep l : no_repeats sameP (lasts l).
Proof.
  induction l as [|f r IH]; [constructor|]. cbn. destruct (contains same r f) eqn:C; [exact IH|]. constructor; [|exact IH].
  intros y Hy S. assert (contains same r f = true); [|congruence]. apply contains_occurs. exists y. split; [apply lasts_in; exact Hy | exact S].
Qed.
Lemma lasts_cover l x : In x l -> exists y, In y (lasts l) /\ sameP x y.
Proof.
  induction l as [|f r IH]; [intros []|]. cbn. intros [->|H].
  - destruct (contains same r x) eqn:C; [|exists x; split; [left; reflexivity | apply ER]].
    apply contains_occurs in C as (z & Hz & Sz).
    assert (G : forall z, In z r -> exists y, In y (lasts r) /\ sameP z y).
    { clear -ER ES ET EQ. induction r as [|f r IH]; [intros ? []|]. intros z. cbn. intros [->|H].
      - destruct (contains same r z) eqn:C; [|exists z; split; [left; reflexivity | apply ER]].
        apply contains_occurs in C as (w & Hw & Sw). destruct (IH w Hw) as (y & Hy & Sy). exists y. split; [exact Hy | eapply ET; eassumption].
      - destruct (IH z H) as (y & Hy & Sy). exists y. split; [destruct (contains same r f); [exact Hy | right; exact Hy] | exact Sy]. }
    destruct (G z Hz) as (y & Hy & Sy). exists y. split; [exact Hy | eapply ET; eassumption].
  - destruct (IH H) as (y & Hy & Sy). exists y. split; [destruct (contains same r f); [exact Hy | right; exact Hy] | exact Sy].
Qed.
Lemma distinct_lasts l : distinct sameP l (lasts l).
Proof. split; [apply lasts_norep|]. split; [apply lasts_in | apply lasts_cover]. Qed.
Lemma norep_filter p l : no_repeats sameP l -> no_repeats sameP (filter p l).
Proof. induction 1 as [|x l H1 H2 IH]; [constructor|]. cbn. destruct (p x); [|exact IH]. constructor; [|exact IH]. intros y Hy. apply filter_In in Hy as [Hy _]. auto. Qed.
Lemma common_lasts l1 l2 : common sameP l1 l2 (filter (contains same l2) (lasts l1)).
Proof.
  split; [apply norep_filter, lasts_norep|]. split.
  - intros x Hx. apply filter_In in Hx as [Hx C]. split; [apply lasts_in; exact Hx | apply contains_occurs; exact C].
  - intros x Hx (z & Hz & Sz). destruct (lasts_cover l1 x Hx) as (y & Hy & Sy). exists y. split; [|exact Sy].
    apply filter_In. split; [exact Hy|]. apply contains_occurs. exists z. split; [exact Hz|]. eapply ET; [apply ES; exact Sy | exact Sz].
Qed.
Lemma distinct_size l r r' : distinct sameP l r -> distinct sameP l r' -> length r = length r'.
Proof. intros (A1 & A2 & A3) (B1 & B2 & B3). apply Nat.le_antisymm; apply pigeon; auto. Qed.
Lemma common_size l1 l2 r r' : common sameP l1 l2 r -> common sameP l1 l2 r' -> length r = length r'.
Proof.
  intros (A1 & A2 & A3) (B1 & B2 & B3). apply Nat.le_antisymm; apply pigeon; auto.
  - intros x Hx. destruct (A2 x Hx). auto. - intros x Hx. destruct (B2 x Hx). auto.
Qed.
Lemma norep_app a b : no_repeats sameP a -> no_repeats sameP b -> (forall x y, In x a -> In y b -> ~ sameP x y) -> no_repeats sameP (a ++ b).
Proof.
  induction 1 as [|x a H1 H2 IH]; intros Hb H; [exact Hb|]. cbn. constructor.
  - intros y Hy. apply in_app_iff in Hy as [Hy|Hy]; [auto|]. apply H; [left; reflexivity | exact Hy].
  - apply IH; [exact Hb|]. intros; apply H; [right; assumption | assumption].
Qed.
Lemma filter_split {X} (p : X -> bool) l : (length (filter p l) + length (filter (fun x => negb (p x)) l) = length l)%nat.
Proof. induction l as [|x l IH]; [reflexivity|]. cbn. destruct (p x); cbn; lia. Qed.
Lemma union_lasts l1 l2 : distinct sameP (l1 ++ l2) (filter (fun x => negb (contains same l2 x)) (lasts l1) ++ lasts l2).
Proof.
  split; [|split].
  - apply norep_app; [apply norep_filter, lasts_norep | apply lasts_norep|]. intros x y Hx Hy S.
    apply filter_In in Hx as [_ C]. apply negb_true_iff in C. assert (contains same l2 x = true); [|congruence].
    apply contains_occurs. exists y. split; [apply lasts_in; exact Hy | exact S].
  - intros x Hx. apply in_app_iff. apply in_app_iff in Hx as [Hx|Hx]; [left; apply filter_In in Hx as [Hx _]; apply lasts_in; exact Hx | right; apply lasts_in; exact Hx].
  - intros x Hx. apply in_app_iff in Hx as [Hx|Hx].
    + destruct (lasts_cover l1 x Hx) as (y & Hy & Sy). destruct (contains same l2 y) eqn:C.
      * apply contains_occurs in C as (z & Hz & Sz). destruct (lasts_cover l2 z Hz) as (w & Hw & Sw). exists w.
        split; [apply in_app_iff; right; exact Hw|]. eapply ET; [exact Sy|]. eapply ET; eassumption.
      * exists y. split; [apply in_app_iff; left; apply filter_In; rewrite C; auto | exact Sy].
    + destruct (lasts_cover l2 x Hx) as (y & Hy & Sy). exists y. split; [apply in_app_iff; right; exact Hy | exact Sy].
Qed.
Lemma jaccard_sizes l1 l2 I U : common sameP l1 l2 I -> distinct sameP (l1 ++ l2) U ->
  let '(s1, i) := jaccard_first same l1 l2 in i = Z.of_nat (length I) /\ s1 + jaccard_second same l2 - i = Z.of_nat (length U) /\ (length I <= length U)%nat.
Proof.
  intros HI HU. rewrite first_lasts, second_lasts.
  rewrite <- (common_size _ _ _ _ (common_lasts l1 l2) HI). rewrite <- (distinct_size _ _ _ (union_lasts l1 l2) HU).
  pose proof (filter_split (contains same l2) (lasts l1)). rewrite app_length. split; [reflexivity|]. split; [lia|].
  rewrite <- (common_size _ _ _ _ HI (common_lasts l1 l2)).
  assert (length I <= length (lasts l2))%nat; [|lia]. destruct HI as (A1 & A2 & A3). apply pigeon; auto.
  intros x Hx. destruct (A2 x Hx) as [_ (y & Hy & Sy)]. destruct (lasts_cover l2 y Hy) as (z & Hz & Sz). exists z. split; [exact Hz | eapply ET; eassumption].
Qed.
Lemma jaccard_value l1 l2 I U : common sameP l1 l2 I -> distinct sameP (l1 ++ l2) U ->
  distance_jaccard same l1 l2 = if Z.of_nat (length U) =? 0 then 0%Q else (1 - inject_Z (Z.of_nat (length I)) / inject_Z (Z.of_nat (length U)))%Q.
Proof.
  intros HI HU. pose proof (jaccard_sizes l1 l2 I U HI HU) as H. unfold distance_jaccard.
  destruct (jaccard_first same l1 l2) as [s1 i]. destruct H as (-> & -> & Hle).
  destruct (Z.of_nat (length U) =? 0) eqn:E; [reflexivity|]. apply Z.eqb_neq in E.
  set (d := (1 - _ / _)%Q).
  assert (Hd : (0 <= d)%Q).
  { unfold d. apply -> Qle_minus_iff. apply Qle_shift_div_r; [unfold Qlt; cbn; lia|]. rewrite Qmult_1_l. unfold Qle; cbn. lia. }
  apply Qle_bool_iff in Hd. rewrite Hd. reflexivity.
Qed.
Lemma jaccard_ex l1 l2 : exists I U, common sameP l1 l2 I /\ distinct sameP (l1 ++ l2) U.
Proof. do 2 eexists. split; [apply common_lasts | apply union_lasts]. Qed.
Lemma distinct_nil l r : distinct sameP l r -> (r = [] <-> l = []).
Proof.
  intros (A1 & A2 & A3). split; intros ->.
  - destruct l as [|x l]; [reflexivity|]. destruct (A3 x (or_introl eq_refl)) as (y & [] & _).
  - destruct r as [|x r]; [reflexivity|]. destruct (A2 x (or_introl eq_refl)).
Qed.
Lemma jaccard_range l1 l2 : (0 <= distance_jaccard same l1 l2 <= 1)%Q.
Proof.
  destruct (jaccard_ex l1 l2) as (I & U & HI & HU). rewrite (jaccard_value _ _ _ _ HI HU).
  pose proof (jaccard_sizes l1 l2 I U HI HU) as H. destruct (jaccard_first same l1 l2). destruct H as (_ & _ & Hle).
  destruct (Z.of_nat (length U) =? 0) eqn:E; [lra|]. apply Z.eqb_neq in E. split.
  - apply -> Qle_minus_iff. apply Qle_shift_div_r; [unfold Qlt; cbn; lia|]. rewrite Qmult_1_l. unfold Qle; cbn. lia.
  - assert (0 <= inject_Z (Z.of_nat (length I)) / inject_Z (Z.of_nat (length U)))%Q; [|lra].
    apply Qle_shift_div_l; [unfold Qlt; cbn; lia|]. rewrite Qmult_0_l. unfold Qle; cbn. lia.
Qed.
Lemma common_swap l1 l2 I I' : common sameP l1 l2 I -> common sameP l2 l1 I' -> length I = length I'.
Proof.
  assert (G : forall l1 l2 I I', common sameP l1 l2 I -> common sameP l2 l1 I' -> (length I <= length I')%nat).
  { intros a b J J' (A1 & A2 & A3) (B1 & B2 & B3). apply pigeon; auto. intros x Hx. destruct (A2 x Hx) as [Ha (z & Hz & Sz)].
    destruct (B3 z Hz) as (y & Hy & Sy); [exists x; split; [exact Ha | apply ES; exact Sz]|]. exists y. split; [exact Hy | eapply ET; eassumption]. }
  intros H1 H2. apply Nat.le_antisymm; eapply G; eassumption.
Qed.
Lemma distinct_swap l1 l2 U : distinct sameP (l1 ++ l2) U -> distinct sameP (l2 ++ l1) U.
Proof.
  intros (A1 & A2 & A3). split; [exact A1|]. split; intros x Hx; [apply A2 in Hx | apply A3]; rewrite in_app_iff in *; tauto.
Qed.
Lemma jaccard_sym l1 l2 : distance_jaccard same l1 l2 = distance_jaccard same l2 l1.
Proof.
  destruct (jaccard_ex l1 l2) as (I & U & HI & HU). destruct (jaccard_ex l2 l1) as (I' & _ & HI' & _).
  rewrite (jaccard_value _ _ _ _ HI HU), (jaccard_value _ _ _ _ HI' (distinct_swap _ _ _ HU)).
  rewrite (common_swap _ _ _ _ HI HI'). reflexivity.
Qed.
(** Insensitive to order and repetition *)
Lemma jaccard_same_frames l1 l1' l2 : same_frames sameP l1 l1' -> distance_jaccard same l1 l2 = distance_jaccard same l1' l2.
Proof.
  intros [S1 S2]. destruct (jaccard_ex l1 l2) as (I & U & HI & HU). destruct (jaccard_ex l1' l2) as (I' & U' & HI' & HU').
  rewrite (jaccard_value _ _ _ _ HI HU), (jaccard_value _ _ _ _ HI' HU').
  assert (GI : forall a b J J', (forall x, In x a -> occurs sameP x b) -> common sameP a l2 J -> common sameP b l2 J' -> (length J <= length J')%nat).
  { intros a b J J' H (A1 & A2 & A3) (B1 & B2 & B3). apply pigeon; auto. intros x Hx. destruct (A2 x Hx) as [Ha (z & Hz & Sz)].
    destruct (H x Ha) as (w & Hw & Sw). destruct (B3 w Hw) as (y & Hy & Sy); [exists z; split; [exact Hz | eapply ET; [apply ES; exact Sw | exact Sz]]|].
    exists y. split; [exact Hy | eapply ET; eassumption]. }
  assert (GU : forall a b J J', (forall x, In x a -> occurs sameP x b) -> distinct sameP (a ++ l2) J -> distinct sameP (b ++ l2) J' -> (length J <= length J')%nat).
  { intros a b J J' H (A1 & A2 & A3) (B1 & B2 & B3). apply pigeon; auto. intros x Hx. pose proof (A2 x Hx) as Ha. apply in_app_iff in Ha as [Ha|Ha].
    - destruct (H x Ha) as (w & Hw & Sw). destruct (B3 w ltac:(apply in_app_iff; auto)) as (y & Hy & Sy). exists y. split; [exact Hy | eapply ET; eassumption].
    - apply B3. apply in_app_iff. auto. }
  replace (length I) with (length I') by (apply Nat.le_antisymm; [exact (GI _ _ _ _ S2 HI' HI) | exact (GI _ _ _ _ S1 HI HI')]).
  replace (length U) with (length U') by (apply Nat.le_antisymm; [exact (GU _ _ _ _ S2 HU' HU) | exact (GU _ _ _ _ S1 HU HU')]). reflexivity.
Qed.
Lemma jaccard_zero l1 l2 : (distance_jaccard same l1 l2 == 0)%Q <-> same_frames sameP l1 l2.
Proof.
  destruct (jaccard_ex l1 l2) as (I & U & HI & HU). rewrite (jaccard_value _ _ _ _ HI HU).
  pose proof (jaccard_sizes l1 l2 I U HI HU) as H. destruct (jaccard_first same l1 l2). destruct H as (_ & _ & Hle).
  assert (Hz : ((if Z.of_nat (length U) =? 0 then 0%Q else (1 - inject_Z (Z.of_nat (length I)) / inject_Z (Z.of_nat (length U)))%Q) == 0)%Q <-> length I = length U).
  { destruct (Z.of_nat (length U) =? 0) eqn:E; [apply Z.eqb_eq in E; split; [lia | reflexivity]|]. apply Z.eqb_neq in E.
    assert (Hu : ~ (inject_Z (Z.of_nat (length U)) == 0)%Q) by (unfold Qeq; cbn; lia). split.
    - intros H. assert (H1 : (inject_Z (Z.of_nat (length I)) / inject_Z (Z.of_nat (length U)) == 1)%Q) by lra.
      assert (H2 : (inject_Z (Z.of_nat (length I)) == inject_Z (Z.of_nat (length U)))%Q).
      { rewrite <- (Qmult_div_r (inject_Z (Z.of_nat (length I))) _ Hu). rewrite H1. ring. }
      unfold Qeq in H2; cbn in H2. lia.
    - intros ->. field. exact Hu. }
  rewrite Hz. destruct HI as (A1 & A2 & A3). destruct HU as (B1 & B2 & B3). split.
  - intros E.
    (* every element of U is matched by one of I, else I would be smaller *)
    assert (G : forall u, In u U -> exists y, In y I /\ sameP u y).
    { intros u Hu. destruct (existsb (fun y => same u y) I) eqn:C; [apply existsb_exists in C as (y & Hy & S); eauto|].
      exfalso. assert (S (length I) <= length U)%nat; [|lia]. apply (pigeon ES ET (u :: I) U).
      - constructor; [|exact A1]. intros y Hy S. assert (existsb (fun y => same u y) I = true); [|congruence]. apply existsb_exists; eauto.
      - intros x [<-|Hx]; [exists u; split; [exact Hu | apply ER]|]. apply B3. apply in_app_iff. left. apply (A2 x Hx). }
    assert (K : forall x, In x (l1 ++ l2) -> exists y, In y I /\ sameP x y).
    { intros x Hx. destruct (B3 x Hx) as (u & Hu & Su). destruct (G u Hu) as (y & Hy & Sy). exists y. split; [exact Hy | eapply ET; eassumption]. }
    split; intros x Hx; (destruct (K x ltac:(apply in_app_iff; auto)) as (y & Hy & Sy)); destruct (A2 y Hy) as [Y1 (zz & Hz' & Sz)].
    + exists zz. split; [exact Hz' | eapply ET; eassumption].
    + exists y. split; assumption.
  - intros [S1 S2]. apply Nat.le_antisymm; [exact Hle|]. apply pigeon; auto. intros u Hu. pose proof (B2 u Hu) as Hu'. apply in_app_iff in Hu' as [H|H].
    + apply A3; [exact H | apply S1; exact H].
    + destruct (S2 u H) as (w & Hw & Sw). destruct (A3 w Hw (S1 w Hw)) as (y & Hy & Sy). exists y. split; [exact Hy | eapply ET; eassumption].
Qed.
Lemma jaccard_one l1 l2 : (distance_jaccard same l1 l2 == 1)%Q <-> (l1 <> [] \/ l2 <> []) /\ disjoint sameP l1 l2.
Proof.
  destruct (jaccard_ex l1 l2) as (I & U & HI & HU). rewrite (jaccard_value _ _ _ _ HI HU).
  assert (Hnil : (Z.of_nat (length U) =? 0) = true <-> l1 = [] /\ l2 = []).
  { rewrite Z.eqb_eq. transitivity (U = []); [destruct U; cbn [length]; split; intros; try discriminate; lia || reflexivity|].
    rewrite (distinct_nil _ _ HU). split; [apply app_eq_nil | intros [-> ->]; reflexivity]. }
  assert (HIn : I = [] <-> disjoint sameP l1 l2).
  { destruct HI as (A1 & A2 & A3). split.
    - intros -> x Hx O. destruct (A3 x Hx O) as (y & [] & _).
    - intros D. destruct I as [|x I]; [reflexivity|]. destruct (A2 x (or_introl eq_refl)) as [H1 H2]. exfalso. exact (D x H1 H2). }
  destruct (Z.of_nat (length U) =? 0) eqn:E.
  - destruct (proj1 Hnil eq_refl) as [-> ->]. split; [intros H; exfalso; revert H; unfold Qeq; cbn; lia | intros [[]]; contradiction].
  - assert (Hu : ~ (inject_Z (Z.of_nat (length U)) == 0)%Q) by (apply Z.eqb_neq in E; unfold Qeq; cbn; lia).
    rewrite <- HIn. split.
    + intros H. split.
      * destruct l1; [right; intros ->; assert (false = true) by (apply Hnil; auto); discriminate | left; discriminate].
      * assert (H1 : (inject_Z (Z.of_nat (length I)) / inject_Z (Z.of_nat (length U)) == 0)%Q) by lra.
        assert (H2 : (inject_Z (Z.of_nat (length I)) == 0)%Q).
        { rewrite <- (Qmult_div_r (inject_Z (Z.of_nat (length I))) _ Hu). rewrite H1. ring. }
        unfold Qeq in H2; cbn in H2. destruct I; [reflexivity | cbn in H2; lia].
    + intros [_ ->]. cbn [length Z.of_nat]. change (inject_Z 0) with 0%Q. unfold Qdiv. rewrite Qmult_0_l. reflexivity.
Qed.
End Count.
