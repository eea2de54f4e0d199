(** * Distances of three threads; threads whose frames compare the same. *)
From Coq Require Import QArith Lqa.
From Verif Require Import Base Types DistMatrixModel DistModel DistSpec DistProofs DistProofs2 DistProofs3 DistProofs4.
Open Scope nat_scope.

(** ** Edit scripts one after the other *)
Section Edits.
Context {F : Type} (same : F -> F -> Prop) (trans : forall x y z, same x y -> same y z -> same x z).
Notation edits := (edits same False).
Lemma edits_trans a b k1 : edits a b k1 -> forall c k2, edits b c k2 -> exists k, k <= k1 + k2 /\ edits a c k.
Proof.
  induction 1 as [|x y a b k1 S H IH|x y a b k1 H IH|x a b k1 H IH|y a b k1 H IH|x1 x2 y1 y2 a b k1 []]; intros c k2 H2.
  - exists k2. split; [lia|exact H2].
  - remember (y :: b) as yb eqn:E. revert y b E S H IH. induction H2 as [|y' z b' c k2 S2 H2 _|y' z b' c k2 H2 _|y' b' c k2 H2 _|z b' c k2 H2 IH2|? ? ? ? ? ? ? []]; intros y b E S H IH; try (injection E as -> ->).
    + discriminate E.
    + destruct (IH _ _ H2) as (k & K & Hk). exists k. split; [lia|]. apply e_keep; [exact (trans _ _ _ S S2)|exact Hk].
    + destruct (IH _ _ H2) as (k & K & Hk). exists (Datatypes.S k). split; [lia|]. apply e_change. exact Hk.
    + destruct (IH _ _ H2) as (k & K & Hk). exists (Datatypes.S k). split; [lia|]. apply e_delete. exact Hk.
    + subst b'. destruct (IH2 y b eq_refl S H IH) as (k & K & Hk). exists (Datatypes.S k). split; [lia|]. apply e_insert. exact Hk.
  - remember (y :: b) as yb eqn:E. revert y b E H IH. induction H2 as [|y' z b' c k2 S2 H2 _|y' z b' c k2 H2 _|y' b' c k2 H2 _|z b' c k2 H2 IH2|? ? ? ? ? ? ? []]; intros y b E H IH; try (injection E as -> ->).
    + discriminate E.
    + destruct (IH _ _ H2) as (k & K & Hk). exists (S k). split; [lia|]. apply e_change. exact Hk.
    + destruct (IH _ _ H2) as (k & K & Hk). exists (S k). split; [lia|]. apply e_change. exact Hk.
    + destruct (IH _ _ H2) as (k & K & Hk). exists (S k). split; [lia|]. apply e_delete. exact Hk.
    + subst b'. destruct (IH2 y b eq_refl H IH) as (k & K & Hk). exists (S k). split; [lia|]. apply e_insert. exact Hk.
  - destruct (IH _ _ H2) as (k & K & Hk). exists (S k). split; [lia|]. apply e_delete. exact Hk.
  - remember (y :: b) as yb eqn:E. revert y b E H IH. induction H2 as [|y' z b' c k2 S2 H2 _|y' z b' c k2 H2 _|y' b' c k2 H2 _|z b' c k2 H2 IH2|? ? ? ? ? ? ? []]; intros y b E H IH; try (injection E as -> ->).
    + discriminate E.
    + destruct (IH _ _ H2) as (k & K & Hk). exists (S k). split; [lia|]. apply e_insert. exact Hk.
    + destruct (IH _ _ H2) as (k & K & Hk). exists (S k). split; [lia|]. apply e_insert. exact Hk.
    + destruct (IH _ _ H2) as (k & K & Hk). exists k. split; [lia|]. exact Hk.
    + subst b'. destruct (IH2 y b eq_refl H IH) as (k & K & Hk). exists (S k). split; [lia|]. apply e_insert. exact Hk.
Qed.
Lemma minimal_triangle a b c k1 k2 k : minimal_edits same False a b k1 -> minimal_edits same False b c k2 -> minimal_edits same False a c k -> k <= k1 + k2.
Proof. intros [H1 _] [H2 _] [_ M]. destruct (edits_trans _ _ _ H1 _ _ H2) as (k' & K & H). apply M in H. lia. Qed.
End Edits.
(** ** Frames that compare the same *)
Section Respect.
Context {F : Type} (same : F -> F -> Prop) (sym : forall x y, same x y -> same y x) (trans : forall x y z, same x y -> same y z -> same x z).
Lemma edits_respect_l P a b k : edits same P a b k -> forall a', Forall2 same a' a -> edits same P a' b k.
Proof.
  induction 1 as [|x y a b k S H IH|x y a b k H IH|x a b k H IH|y a b k H IH|x1 x2 y1 y2 a b k p S1 S2 H IH]; intros a' E.
  - inversion E; subst. constructor.
  - inversion E as [|x' x'' a'' a''' Sx Ea]; subst. apply e_keep; [exact (trans _ _ _ Sx S)|auto].
  - inversion E as [|x' x'' a'' a''' Sx Ea]; subst. apply e_change. auto.
  - inversion E as [|x' x'' a'' a''' Sx Ea]; subst. apply e_delete. auto.
  - apply e_insert. auto.
  - inversion E as [|x' x'' a'' a''' Sx Ea]; subst. inversion Ea as [|z' z'' c'' c''' Sz Ec]; subst. apply e_swap; eauto.
Qed.
Lemma forall2_sym a b : Forall2 same a b -> Forall2 same b a.
Proof. induction 1; auto. Qed.
Lemma edits_respect P a a' b b' k : Forall2 same a a' -> Forall2 same b b' -> edits same P a b k -> edits same P a' b' k.
Proof.
  intros Ea Eb H. apply (edits_respect_l P a b' k); [|apply forall2_sym; exact Ea]. apply (edits_sym same P sym). apply (edits_respect_l P b a k); [|apply forall2_sym; exact Eb]. apply (edits_sym same P sym). exact H.
Qed.
Lemma minimal_respect P a a' b b' k k' : Forall2 same a a' -> Forall2 same b b' -> minimal_edits same P a b k -> minimal_edits same P a' b' k' -> k = k'.
Proof.
  intros Ea Eb [H M] [H' M']. pose proof (edits_respect _ _ _ _ _ _ Ea Eb H) as K. pose proof (edits_respect _ _ _ _ _ _ (forall2_sym _ _ Ea) (forall2_sym _ _ Eb) H') as K'. apply M' in K. apply M in K'. lia.
Qed.
End Respect.

Section Same.
Context {F : Type} (same : F -> F -> bool).
Notation sameP := (fun x y => same x y = true).
Hypothesis P : partial_equivalence sameP.
Lemma same_respect x x' y y' : sameP x x' -> sameP y y' -> same x y = same x' y'.
Proof.
  destruct P as [S T]. intros Ex Ey. destruct (same x y) eqn:E; destruct (same x' y') eqn:E'; try reflexivity.
  - rewrite (T x' x y' (S _ _ Ex) (T _ _ _ E Ey)) in E'. discriminate.
  - rewrite (T x x' y Ex (T _ _ _ E' (S _ _ Ey))) in E. discriminate.
Qed.
Lemma contains_respect l l' x x' : Forall2 sameP l l' -> sameP x x' -> contains same l x = contains same l' x'.
Proof. intros H Ex. unfold contains. induction H as [|y y' l l' Ey _ IH]; [reflexivity|]. cbn [existsb]. rewrite IH, (same_respect _ _ _ _ Ey Ex). reflexivity. Qed.
Lemma first_respect a a' b b' : Forall2 sameP a a' -> Forall2 sameP b b' -> jaccard_first same a b = jaccard_first same a' b'.
Proof.
  intros H Hb. induction H as [|x x' a a' Ex H IH]; [reflexivity|]. cbn [jaccard_first]. rewrite IH, (contains_respect _ _ _ _ H Ex), (contains_respect _ _ _ _ Hb Ex). reflexivity.
Qed.
Lemma second_respect a a' : Forall2 sameP a a' -> jaccard_second same a = jaccard_second same a'.
Proof. induction 1 as [|x x' a a' Ex H IH]; [reflexivity|]. cbn [jaccard_second]. rewrite IH, (contains_respect _ _ _ _ H Ex). reflexivity. Qed.
Lemma inner_respect max i f f' b b' : sameP f f' -> Forall2 sameP b b' -> forall j m s t, jw_inner same max i j f b m s t = jw_inner same max i j f' b' m s t.
Proof.
  intros Ef H. induction H as [|y y' b b' Ey _ IH]; intros j m s t; [reflexivity|]. cbn [jw_inner]. rewrite (same_respect _ _ _ _ Ef Ey). destruct m; [reflexivity|]. apply IH.
Qed.
Lemma outer_respect max a a' b b' : Forall2 sameP a a' -> Forall2 sameP b b' -> forall i s p t m, jw_outer same max i a b s p t m = jw_outer same max i a' b' s p t m.
Proof.
  intros H Hb. induction H as [|x x' a a' Ex _ IH]; intros i s p t m; [reflexivity|]. cbn [jw_outer]. rewrite (inner_respect _ _ _ _ _ _ Ex Hb). destruct (jw_inner same max i 1 x' b' false s t) as [[m' s'] t']. apply IH.
Qed.
Lemma respect_edit tr ty A A' B B' : fits A B -> Forall2 sameP A A' -> Forall2 sameP B B' ->
  sr_distance same (edit_type tr) (ty, A) (ty, B) = sr_distance same (edit_type tr) (ty, A') (ty, B').
Proof.
  intros Hf HA HB. pose proof (F2_length _ _ _ HA) as LA. pose proof (F2_length _ _ _ HB) as LB. assert (Hf' : fits A' B') by (unfold fits in *; rewrite <- LA, <- LB; exact Hf).
  assert (N : (A = [] /\ B = []) \/ (A <> [] \/ B <> [])). { destruct A; [destruct B; [left; auto|right; right; discriminate]|right; left; discriminate]. }
  destruct N as [[-> ->]|N]; [inversion HA; inversion HB; reflexivity|].
  assert (N' : A' <> [] \/ B' <> []). { destruct N as [N|N]; [left|right]; intros ->; apply N; [destruct A|destruct B]; cbn in *; congruence. }
  destruct (edit_value same tr ty A B Hf N (fun _ => P)) as (k & Mk & ->). destruct (edit_value same tr ty A' B' Hf' N' (fun _ => P)) as (k' & Mk' & ->).
  rewrite (minimal_respect _ (proj1 P) (proj2 P) _ _ _ _ _ _ _ HA HB Mk Mk'). unfold longer. rewrite LA, LB. reflexivity.
Qed.
Theorem respect_all dt ty ty' A A' B B' : fits A B -> Forall2 sameP A A' -> Forall2 sameP B B' -> sr_distance same dt (ty, A) (ty', B) = sr_distance same dt (ty, A') (ty', B').
Proof.
  intros Hf HA HB. destruct (Nat.eq_dec ty ty') as [<-|Ht].
  2:{ unfold sr_distance. cbn [fst snd]. rewrite (proj2 (Nat.eqb_neq _ _) Ht). reflexivity. }
  destruct dt; [| |exact (respect_edit false _ _ _ _ _ Hf HA HB)|exact (respect_edit true _ _ _ _ _ Hf HA HB)|reflexivity]; unfold sr_distance; cbn [fst snd]; rewrite Nat.eqb_refl; f_equal.
  - unfold distance_jaro_winkler. rewrite (F2_length _ _ _ HA), (F2_length _ _ _ HB), (outer_respect _ _ _ _ _ HA HB). reflexivity.
  - unfold distance_jaccard. rewrite (first_respect _ _ _ _ HA HB), (second_respect _ _ HB). reflexivity.
Qed.
Theorem twins_edit tr ty A B C : fits A B -> fits A C -> forall d, sr_distance same (edit_type tr) (ty, A) (ty, B) = Ok d -> (d == 0)%Q ->
  forall dt ty', (forall x, same x x = true) -> sr_distance same dt (ty, A) (ty', C) = sr_distance same dt (ty, B) (ty', C).
Proof.
  intros Hf HC d E Z dt ty' R. apply (edit_zero same tr ty A B d Hf (fun _ => P) E) in Z. apply respect_all; [exact HC|exact Z|]. clear - R. induction C; constructor; auto.
Qed.
End Same.

(** ** Levenshtein *)
Section Lev.
Context {F : Type} (same : F -> F -> bool).
Notation sameP := (fun x y => same x y = true).
Lemma lev_count ty A B : fits A B -> exists k, minimal_edits sameP False A B k /\ exists d, sr_distance same LEVENSHTEIN (ty, A) (ty, B) = Ok d /\ (d * inject_Z (Z.of_nat (longer A B)) == inject_Z (Z.of_nat k))%Q.
Proof.
  intros Hf. assert (N : (A = [] /\ B = []) \/ (A <> [] \/ B <> [])). { destruct A; [destruct B; [left; auto|right; right; discriminate]|right; left; discriminate]. }
  destruct N as [[-> ->]|N].
  - exists 0. split; [split; [constructor|lia]|]. exists 0%Q. split; [apply (edit_empty same false)|reflexivity].
  - destruct (plain_value F same ty A B Hf N) as (k & Mk & E). exists k. split; [exact Mk|]. eexists. split; [exact E|]. unfold quotient. pose proof (quotient_pos _ (longer_pos A B N)) as Q. field. intros K. rewrite K in Q. discriminate Q.
Qed.
Theorem lev_triangle ty A B C : (forall x y z, sameP x y -> sameP y z -> sameP x z) -> fits A B -> fits B C -> fits A C ->
  exists d1 d2 d, sr_distance same LEVENSHTEIN (ty, A) (ty, B) = Ok d1 /\ sr_distance same LEVENSHTEIN (ty, B) (ty, C) = Ok d2 /\ sr_distance same LEVENSHTEIN (ty, A) (ty, C) = Ok d /\
    (d * inject_Z (Z.of_nat (longer A C)) <= d1 * inject_Z (Z.of_nat (longer A B)) + d2 * inject_Z (Z.of_nat (longer B C)))%Q.
Proof.
  intros T H1 H2 H3. destruct (lev_count ty A B H1) as (k1 & M1 & d1 & E1 & Q1). destruct (lev_count ty B C H2) as (k2 & M2 & d2 & E2 & Q2). destruct (lev_count ty A C H3) as (k & M & d & E & Q).
  exists d1, d2, d. repeat (split; [assumption|]). rewrite Q, Q1, Q2. pose proof (minimal_triangle _ T _ _ _ _ _ _ M1 M2 M). rewrite <- inject_Z_plus, <- Zle_Qle. lia.
Qed.
Theorem lev_equal_lengths ty A B C d1 d2 d : (forall x y z, sameP x y -> sameP y z -> sameP x z) -> fits A B -> length A = length B -> length B = length C ->
  sr_distance same LEVENSHTEIN (ty, A) (ty, B) = Ok d1 -> sr_distance same LEVENSHTEIN (ty, B) (ty, C) = Ok d2 -> sr_distance same LEVENSHTEIN (ty, A) (ty, C) = Ok d -> (d <= d1 + d2)%Q.
Proof.
  intros T Hf LA LB E1 E2 E. assert (fits B C /\ fits A C) as [H2 H3] by (unfold fits in *; rewrite <- LB, <- LA in *; auto).
  destruct (lev_triangle ty A B C T Hf H2 H3) as (e1 & e2 & e & K1 & K2 & K & Q). rewrite E1 in K1. rewrite E2 in K2. rewrite E in K. injection K1 as <-. injection K2 as <-. injection K as <-.
  unfold longer in Q. rewrite <- LB, <- LA, Nat.max_id in Q. rewrite <- Qmult_plus_distr_l in Q. destruct A as [|x A].
  - destruct B; [|discriminate]. destruct C; [|discriminate]. rewrite (edit_empty same false) in *. injection E1 as <-. injection E2 as <-. injection E as <-. discriminate.
  - apply Qmult_le_r in Q; [exact Q|]. apply quotient_pos. cbn. lia.
Qed.
End Lev.

(** ** Jaccard *)
Section Jac.
Context {F : Type} (same : F -> F -> bool).
Notation sameP := (fun x y => same x y = true).
Hypothesis EQ : equivalence sameP.
Definition count (p : F -> bool) (l : list F) : nat := length (filter p l).
Lemma equal_size r1 r2 : no_repeats sameP r1 -> no_repeats sameP r2 -> (forall x, In x r1 -> exists y, In y r2 /\ sameP x y) -> (forall x, In x r2 -> exists y, In y r1 /\ sameP x y) -> length r1 = length r2.
Proof. destruct EQ as (_ & S & T). intros N1 N2 H1 H2. apply Nat.le_antisymm; eapply (pigeon same S T); eassumption. Qed.
(** One representative of every frame of the three threads; the predicates tell in which it occurs. *)
Lemma size_all W l1 l2 I U : no_repeats sameP W -> (forall x, In x l1 \/ In x l2 -> exists y, In y W /\ sameP x y) -> common sameP l1 l2 I -> distinct sameP (l1 ++ l2) U ->
  length I = count (fun w => contains same l1 w && contains same l2 w) W /\ length U = count (fun w => contains same l1 w || contains same l2 w) W.
Proof.
  destruct EQ as (R & S & T). intros NW HW (NI & I1 & I2) (NU & U1 & U2).
  assert (CO : forall l x, contains same l x = true <-> exists y, In y l /\ sameP x y).
  { intros l x. unfold contains. rewrite existsb_exists. split; intros (y & Hy & E); exists y; auto. }
  split; (apply equal_size; [assumption|apply norep_filter; exact NW| |]); intros x Hx.
  - destruct (I1 x Hx) as (H1 & y2 & Hy2 & E2). destruct (HW x (or_introl H1)) as (w & Hw & Ew). exists w. split; [|exact Ew]. apply filter_In. split; [exact Hw|]. apply andb_true_iff. split; apply CO; [exists x; auto|exists y2; eauto].
  - apply filter_In in Hx as [Hx E]. apply andb_true_iff in E as [E1 E2]. apply CO in E1 as (y1 & H1 & E1). apply CO in E2 as (y2 & H2 & E2). destruct (I2 y1 H1) as (z & Hz & Ez); [exists y2; eauto|]. exists z. eauto.
  - specialize (U1 x Hx). apply in_app_or in U1. destruct (HW x U1) as (w & Hw & Ew). exists w. split; [|exact Ew]. apply filter_In. split; [exact Hw|]. apply orb_true_iff. destruct U1; [left|right]; apply CO; exists x; auto.
  - apply filter_In in Hx as [Hx E]. apply orb_true_iff in E. assert (exists y, In y (l1 ++ l2) /\ sameP x y) as (y & Hy & Ey). { destruct E as [E|E]; apply CO in E as (y & Hy & Ey); exists y; (split; [apply in_or_app; auto|exact Ey]). }
    destruct (U2 y Hy) as (z & Hz & Ez). exists z. eauto.
Qed.
Lemma venn (a b c : F -> bool) W :
  count (fun w => a w || b w) W + count (fun w => a w && c w) W <= count (fun w => a w && c w) W + count (fun w => a w && c w) W + (count (fun w => a w || b w) W - count (fun w => a w && b w) W) + (count (fun w => b w || c w) W - count (fun w => b w && c w) W) /\
  count (fun w => b w || c w) W <= count (fun w => a w && c w) W + (count (fun w => a w || b w) W - count (fun w => a w && b w) W) + (count (fun w => b w || c w) W - count (fun w => b w && c w) W) /\
  count (fun w => a w || c w) W - count (fun w => a w && c w) W <= (count (fun w => a w || b w) W - count (fun w => a w && b w) W) + (count (fun w => b w || c w) W - count (fun w => b w && c w) W) /\
  count (fun w => a w && b w) W <= count (fun w => a w || b w) W /\ count (fun w => b w && c w) W <= count (fun w => b w || c w) W /\ count (fun w => a w && c w) W <= count (fun w => a w || c w) W.
Proof.
  induction W as [|w W IH]; [cbn; lia|]. unfold count in *. cbn [filter]. destruct (a w), (b w), (c w); cbn [andb orb length]; lia.
Qed.
Lemma thirds (i1 u1 i2 u2 i u : Z) : (0 <= i1 <= u1 -> 0 <= i2 <= u2 -> 0 <= i <= u -> 0 < u1 -> 0 < u2 -> 0 < u ->
  u1 <= i + (u1 - i1) + (u2 - i2) -> u2 <= i + (u1 - i1) + (u2 - i2) -> u - i <= (u1 - i1) + (u2 - i2) ->
  (u - i) * (u1 * u2) <= (u1 - i1) * (u2 * u) + (u2 - i2) * (u1 * u))%Z.
Proof.
  intros H1 H2 H P1 P2 P3 L1 L2 L3. set (x := (u1 - i1)%Z) in *. set (y := (u2 - i2)%Z) in *. set (p := (u - i)%Z) in *.
  assert (Hu : (u = i + p)%Z) by (unfold p; lia). rewrite Hu. assert (0 <= x /\ 0 <= y /\ 0 <= p)%Z as (X & Y & Pp) by (unfold x, y, p; lia).
  (* p (i + x + y) <= (x + y) (i + p) *)
  assert (A : (p * (i + x + y) <= (x + y) * (i + p))%Z) by nia.
  set (D := (i + x + y)%Z) in *. assert (D1 : (u1 <= D)%Z) by (unfold D; lia). assert (D2 : (u2 <= D)%Z) by (unfold D; lia).
  assert (B : (x * (i + p) * (u1 * u2) <= x * (i + p) * (D * u2))%Z) by (apply Z.mul_le_mono_nonneg_l; nia).
  assert (C : (y * (i + p) * (u1 * u2) <= y * (i + p) * (u1 * D))%Z) by (apply Z.mul_le_mono_nonneg_l; nia).
  assert (E : (p * D * (u1 * u2) <= (x + y) * (i + p) * (u1 * u2))%Z) by (apply Z.mul_le_mono_nonneg_r; nia).
  apply (Z.mul_le_mono_pos_r _ _ D); [lia|]. nia.
Qed.
Lemma complement i u : (0 < u)%Z -> (1 - inject_Z i / inject_Z u == inject_Z (u - i) / inject_Z u)%Q.
Proof. intros H. assert (0 < inject_Z u)%Q by (rewrite <- (Zlt_Qlt 0); exact H). unfold Z.sub. rewrite inject_Z_plus, inject_Z_opp. field. intros K. rewrite K in H0. discriminate H0. Qed.
Lemma no_frames l1 l2 U : distinct sameP (l1 ++ l2) U -> (U = [] <-> l1 = [] /\ l2 = []).
Proof. intros H. rewrite (distinct_nil same _ _ H). split; [apply app_eq_nil|intros [-> ->]; reflexivity]. Qed.
Lemma empty_one l : l <> [] -> (distance_jaccard same [] l == 1)%Q.
Proof. intros H. apply (jaccard_one same EQ). split; [auto|]. intros x []. Qed.
Theorem jaccard_triangle A B C : (distance_jaccard same A C <= distance_jaccard same A B + distance_jaccard same B C)%Q.
Proof.
  pose proof (jaccard_range same EQ A B) as R1. pose proof (jaccard_range same EQ B C) as R2. pose proof (jaccard_range same EQ A C) as R3.
  assert (A = [] \/ A <> []) as [->|NA] by (destruct A; [left; reflexivity|right; discriminate]).
  { assert (B = [] \/ B <> []) as [->|NB] by (destruct B; [left; reflexivity|right; discriminate]).
    - lra.
    - rewrite (empty_one B NB). lra. }
  assert (C = [] \/ C <> []) as [->|NC] by (destruct C; [left; reflexivity|right; discriminate]).
  { assert (B = [] \/ B <> []) as [->|NB] by (destruct B; [left; reflexivity|right; discriminate]); [lra|]. rewrite (jaccard_sym same EQ B []), (empty_one B NB). lra. }
  destruct (jaccard_ex same EQ A B) as (I1 & U1 & HI1 & HU1). destruct (jaccard_ex same EQ B C) as (I2 & U2 & HI2 & HU2). destruct (jaccard_ex same EQ A C) as (I3 & U3 & HI3 & HU3).
  rewrite (jaccard_value same EQ _ _ _ _ HI1 HU1), (jaccard_value same EQ _ _ _ _ HI2 HU2), (jaccard_value same EQ _ _ _ _ HI3 HU3).
  pose proof (distinct_lasts same EQ (A ++ B ++ C)) as (NW & _ & HW). set (W := lasts same (A ++ B ++ C)) in *.
  destruct (size_all W A B I1 U1 NW) as [S1 T1]; [intros x Hx; apply HW; rewrite !in_app_iff; tauto|assumption|assumption|].
  destruct (size_all W B C I2 U2 NW) as [S2 T2]; [intros x Hx; apply HW; rewrite !in_app_iff; tauto|assumption|assumption|].
  destruct (size_all W A C I3 U3 NW) as [S3 T3]; [intros x Hx; apply HW; rewrite !in_app_iff; tauto|assumption|assumption|].
  pose proof (venn (contains same A) (contains same B) (contains same C) W) as V. rewrite <- S1, <- S2, <- S3, <- T1, <- T2, <- T3 in V.
  assert (P1 : 0 < length U1) by (destruct U1; [|cbn; lia]; destruct (proj1 (no_frames _ _ _ HU1) eq_refl); congruence).
  assert (P2 : 0 < length U2) by (destruct U2; [|cbn; lia]; destruct (proj1 (no_frames _ _ _ HU2) eq_refl); congruence).
  assert (P3 : 0 < length U3) by (destruct U3; [|cbn; lia]; destruct (proj1 (no_frames _ _ _ HU3) eq_refl); congruence).
  rewrite !(proj2 (Z.eqb_neq _ _)) by lia. rewrite !complement by lia. clear - V P1 P2 P3.
  destruct V as (V1 & V2 & V3 & V4 & V5 & V6).
  pose proof (thirds (Z.of_nat (length I1)) (Z.of_nat (length U1)) (Z.of_nat (length I2)) (Z.of_nat (length U2)) (Z.of_nat (length I3)) (Z.of_nat (length U3)) ltac:(lia) ltac:(lia) ltac:(lia) ltac:(lia) ltac:(lia) ltac:(lia) ltac:(lia) ltac:(lia) ltac:(lia)) as K.
  set (u1 := Z.of_nat (length U1)) in *. set (u2 := Z.of_nat (length U2)) in *. set (u := Z.of_nat (length U3)) in *. assert (0 < u1 /\ 0 < u2 /\ 0 < u)%Z as (Q1 & Q2 & Q3) by (unfold u1, u2, u; lia).
  set (x := (u1 - Z.of_nat (length I1))%Z) in *. set (y := (u2 - Z.of_nat (length I2))%Z) in *. set (p := (u - Z.of_nat (length I3))%Z) in *. clearbody x y p u1 u2 u.
  rewrite Zlt_Qlt in Q1, Q2, Q3. rewrite Zle_Qle in K. rewrite inject_Z_plus, !inject_Z_mult in K. change (inject_Z 0) with 0%Q in *.
  apply (Qmult_le_r _ _ (inject_Z u1 * inject_Z u2 * inject_Z u)); [apply Qmult_lt_0_compat; [apply Qmult_lt_0_compat; assumption|assumption]|].
  assert (~ inject_Z u1 == 0 /\ ~ inject_Z u2 == 0 /\ ~ inject_Z u == 0)%Q as (N1 & N2 & N3) by (repeat split; lra).
  setoid_replace (inject_Z p / inject_Z u * (inject_Z u1 * inject_Z u2 * inject_Z u))%Q with (inject_Z p * (inject_Z u1 * inject_Z u2))%Q by (field; exact N3).
  setoid_replace ((inject_Z x / inject_Z u1 + inject_Z y / inject_Z u2) * (inject_Z u1 * inject_Z u2 * inject_Z u))%Q with (inject_Z x * (inject_Z u2 * inject_Z u) + inject_Z y * (inject_Z u1 * inject_Z u))%Q by (field; split; assumption).
  exact K.
Qed.
End Jac.
Theorem jaccard_triangle_types {F} (same : F -> F -> bool) : equivalence (fun x y => same x y = true) -> forall t1 t2 t3 : nat * list F, exists d1 d2 d,
  sr_distance same JACCARD t1 t2 = Ok d1 /\ sr_distance same JACCARD t2 t3 = Ok d2 /\ sr_distance same JACCARD t1 t3 = Ok d /\ (d <= d1 + d2)%Q.
Proof.
  intros E [y1 A] [y2 B] [y3 C]. unfold sr_distance. cbn [fst snd]. pose proof (jaccard_range same E A B). pose proof (jaccard_range same E B C). pose proof (jaccard_range same E A C). pose proof (jaccard_triangle same E A B C).
  destruct (Nat.eqb_spec y1 y2), (Nat.eqb_spec y2 y3), (Nat.eqb_spec y1 y3); try congruence; cbn [negb]; do 3 eexists; repeat (split; [reflexivity|]); lra.
Qed.
