(** * Proofs about the Jaro-Winkler similarity. *)
From Coq Require Import QArith Lqa.
From Verif Require Import Base DistMatrixModel DistModel DistSpec DistProofs2.
Open Scope Z_scope.

Lemma F2_length {A B} (P : A -> B -> Prop) a b : Forall2 P a b -> length a = length b.
Proof. induction 1; cbn; auto. Qed.

Section JW.
Context {F : Type} (same : F -> F -> bool).
Notation sameP := (fun x y => same x y = true).

(** What the inner loop returns. *)
Lemma inner_facts max i f fs2 : forall j m s t m' s' t', jw_inner same max i j f fs2 m s t = (m', s', t') ->
  (m = true -> m' = true /\ t' = t /\ s' = s) /\
  (m = false -> t <= t' <= t + (if m' then 1 else 0) /\
    (m' = true -> exists k g, nth_error fs2 k = Some g /\ same f g = true /\ (t' = t -> j + Z.of_nat k = i))).
Proof.
  induction fs2 as [|f2 rest IH]; intros j m s t m' s' t' E; cbn in E.
  - injection E as <- <- <-. split; [auto|]. intros ->. split; [lia|discriminate].
  - destruct m; [injection E as <- <- <-; split; [auto|discriminate]|]. split; [discriminate|]. intros _.
    apply IH in E as [H1 H2]. destruct ((Z.abs (i - j) <=? Z.quot max 2 - 1) && same f f2) eqn:C; cbn [andb] in *.
    + destruct (H1 eq_refl) as (-> & -> & ->). apply andb_prop in C as [_ C]. split; [destruct (negb (i =? j)); lia|].
      intros _. exists O, f2. split; [reflexivity|]. split; [exact C|]. destruct (i =? j) eqn:Eij; cbn [negb]; lia.
    + destruct (H2 eq_refl) as [H3 H4]. split; [exact H3|]. intros Hm. destruct (H4 Hm) as (k & g & K1 & K2 & K3).
      exists (S k), g. split; [exact K1|]. split; [exact K2|]. intros Et. specialize (K3 Et). lia.
Qed.
(** What the outer loop returns: the matched frames. *)
Lemma outer_facts max fs2 fs : forall i s p t m p' t' m', jw_outer same max i fs fs2 s p t m = (p', t', m') ->
  0 <= p -> 0 <= p' /\ t <= t' <= t + (m' - m) /\
  (exists l, Z.of_nat (length l) = m' - m /\ (forall x, In x l -> In x fs /\ occurs sameP x fs2) /\ (length l <= length fs)%nat /\
    (no_repeats sameP fs -> no_repeats sameP l)) /\
  (m' - m = Z.of_nat (length fs) -> t' = t -> forall k x, nth_error fs k = Some x ->
     exists g, 0 <= i + Z.of_nat k - 1 /\ nth_error fs2 (Z.to_nat (i + Z.of_nat k - 1)) = Some g /\ same x g = true).
Proof.
  induction fs as [|f fs IH]; intros i s p t m p' t' m' E Hp; cbn in E.
  - injection E as <- <- <-. split; [lia|]. split; [lia|]. split.
    + exists []. cbn. repeat split; try lia; try contradiction. auto.
    + intros _ _ [|k]; discriminate.
  - destruct (jw_inner same max i 1 f fs2 false s t) as [[mm ss] tt] eqn:Ei.
    pose proof (proj2 (inner_facts _ _ _ _ _ _ _ _ _ _ _ Ei) eq_refl) as [H1 H2].
    apply IH in E as (P1 & P2 & (l & L1 & L2 & L3 & L4) & P4); [|destruct ss; lia].
    split; [exact P1|]. split; [destruct mm; lia|]. split.
    + destruct mm.
      * destruct (H2 eq_refl) as (k & g & K1 & K2 & _). exists (f :: l). cbn [length]. split; [lia|]. split; [|split; [lia|]].
        -- intros x [<-|Hx]; [split; [left; reflexivity | exists g; split; [eapply nth_error_In; exact K1 | exact K2]]|].
           destruct (L2 x Hx). split; [right; assumption | assumption].
        -- intros N. inversion N as [|? ? N1 N2]; subst. constructor; [|apply L4; exact N2]. intros y Hy. apply N1. apply L2. exact Hy.
      * exists l. split; [lia|]. split; [|split; [cbn; lia|]].
        -- intros x Hx. destruct (L2 x Hx). split; [right; assumption | assumption].
        -- intros N. inversion N; subst. auto.
    + intros Hm Ht. cbn [length] in Hm.
      assert (Hmm : mm = true) by (destruct mm; [reflexivity | lia]). subst mm.
      intros [|k] x Hx.
      * cbn in Hx. injection Hx as <-. destruct (H2 eq_refl) as (k & g & K1 & K2 & K3). specialize (K3 ltac:(lia)).
        exists g. split; [lia|]. split; [|exact K2]. replace (Z.to_nat (i + Z.of_nat 0 - 1)) with k by lia. exact K1.
      * cbn in Hx. destruct (P4 ltac:(lia) ltac:(lia) k x Hx) as (g & G1 & G2 & G3). exists g.
        replace (i + Z.of_nat (S k) - 1) with (i + 1 + Z.of_nat k - 1) by lia. auto.
Qed.

Lemma frac_range a b : 0 <= a -> 0 < b -> (0 <= inject_Z a / inject_Z b)%Q /\ (a <= b -> (inject_Z a / inject_Z b <= 1)%Q).
Proof.
  intros Ha Hb. split.
  - apply Qle_shift_div_l; [unfold Qlt; cbn; lia|]. rewrite Qmult_0_l. unfold Qle; cbn. lia.
  - intros Hab. apply Qle_shift_div_r; [unfold Qlt; cbn; lia|]. rewrite Qmult_1_l. unfold Qle; cbn. lia.
Qed.
(** The final formula. *)
Definition jw_formula (c1 c2 p t m : Z) : Q :=
  let mq := inject_Z m in
  let tq := (inject_Z t / 2)%Q in
  let jaro := ((mq / inject_Z c1 + mq / inject_Z c2 + (mq - tq) / mq) / 3)%Q in
  (jaro + inject_Z p * (1 # 5) * (1 - jaro))%Q.
Lemma third_term m t : 0 < m -> 0 <= t <= m -> let r := ((inject_Z m - inject_Z t / 2) / inject_Z m)%Q in
  (0 <= r <= 1)%Q /\ ((r == 1)%Q -> t = 0) /\ (t = 0 -> (r == 1)%Q).
Proof.
  intros Hm Ht r. change (inject_Z t / 2)%Q with (inject_Z t * (1#2))%Q in r. assert (Hm' : (0 < inject_Z m)%Q) by (unfold Qlt; cbn; lia).
  assert (H0 : (0 <= inject_Z t)%Q) by (unfold Qle; cbn; lia). assert (H1 : (inject_Z t <= inject_Z m)%Q) by (unfold Qle; cbn; lia).
  assert (Hr : (r * inject_Z m == inject_Z m - inject_Z t * (1#2))%Q). { unfold r. field. lra. }
  split; [|split].
  - split; unfold r; [apply Qle_shift_div_l | apply Qle_shift_div_r]; try exact Hm'; lra.
  - intros E. rewrite E in Hr. assert (inject_Z t == 0)%Q by lra. unfold Qeq in *; cbn in *. lia.
  - intros ->. unfold r. change (inject_Z 0) with 0%Q. field. lra.
Qed.
Lemma formula_range c1 c2 p t m : 0 < c1 -> 0 < c2 -> 0 <= p <= 4 -> 0 < m -> m <= c1 -> m <= c2 -> 0 <= t <= m ->
  (0 <= jw_formula c1 c2 p t m <= 1)%Q.
Proof.
  intros H1 H2 Hp Hm M1 M2 Ht. unfold jw_formula.
  destruct (frac_range m c1 ltac:(lia) H1) as [A1 A2]. destruct (frac_range m c2 ltac:(lia) H2) as [B1 B2].
  destruct (third_term m t Hm Ht) as [[C1 C2] _]. specialize (A2 M1). specialize (B2 M2).
  set (x := (inject_Z m / inject_Z c1)%Q) in *. set (y := (inject_Z m / inject_Z c2)%Q) in *. set (z := ((_ - _) / _)%Q) in *.
  change ((x + y + z) / 3)%Q with ((x + y + z) * (1#3))%Q. set (jaro := ((x + y + z) * (1#3))%Q). assert (0 <= jaro <= 1)%Q by (unfold jaro; lra).
  assert (P0 : (0 <= inject_Z p)%Q) by (unfold Qle; cbn; lia). assert (P4 : (inject_Z p <= 4)%Q) by (unfold Qle; cbn; lia).
  clearbody jaro. set (q := inject_Z p) in *. clearbody q. split; nra.
Qed.
Lemma formula_one c1 c2 p t m : 0 < c1 -> 0 < c2 -> 0 <= p <= 4 -> 0 < m -> m <= c1 -> m <= c2 -> 0 <= t <= m ->
  (jw_formula c1 c2 p t m == 1)%Q <-> m = c1 /\ m = c2 /\ t = 0.
Proof.
  intros H1 H2 Hp Hm M1 M2 Ht. unfold jw_formula.
  destruct (frac_range m c1 ltac:(lia) H1) as [A1 A2]. destruct (frac_range m c2 ltac:(lia) H2) as [B1 B2].
  destruct (third_term m t Hm Ht) as ([C1 C2] & C3 & C4). specialize (A2 M1). specialize (B2 M2).
  assert (AE : (inject_Z m / inject_Z c1 == 1)%Q -> m = c1).
  { intros E. assert (K : (inject_Z m == inject_Z c1)%Q). { rewrite <- (Qmult_div_r (inject_Z m) (inject_Z c1)); [rewrite E; ring | unfold Qeq; cbn; lia]. } unfold Qeq in K; cbn in K. lia. }
  assert (BE : (inject_Z m / inject_Z c2 == 1)%Q -> m = c2).
  { intros E. assert (K : (inject_Z m == inject_Z c2)%Q). { rewrite <- (Qmult_div_r (inject_Z m) (inject_Z c2)); [rewrite E; ring | unfold Qeq; cbn; lia]. } unfold Qeq in K; cbn in K. lia. }
  assert (AR : m = c1 -> (inject_Z m / inject_Z c1 == 1)%Q) by (intros ->; field; unfold Qeq; cbn; lia).
  assert (BR : m = c2 -> (inject_Z m / inject_Z c2 == 1)%Q) by (intros ->; field; unfold Qeq; cbn; lia).
  set (x := (inject_Z m / inject_Z c1)%Q) in *. set (y := (inject_Z m / inject_Z c2)%Q) in *. set (z := ((_ - _) / _)%Q) in *.
  assert (P0 : (0 <= inject_Z p)%Q) by (unfold Qle; cbn; lia). assert (P4 : (inject_Z p <= 4)%Q) by (unfold Qle; cbn; lia).
  set (q := inject_Z p) in *. clearbody q x y z. split.
  - change ((x + y + z) / 3)%Q with ((x + y + z) * (1#3))%Q. intros E. set (jaro := ((x + y + z) * (1#3))%Q) in *.
    assert (J : (0 <= jaro <= 1)%Q) by (unfold jaro; lra).
    assert (J1 : (jaro == 1)%Q) by (assert (1 <= jaro)%Q by nra; lra). unfold jaro in J1.
    split; [apply AE; lra|]. split; [apply BE; lra | apply C3; lra].
  - intros (Ea & Eb & Et). rewrite (AR Ea), (BR Eb), (C4 Et). field.
Qed.
Lemma jw_value fs1 fs2 : fs1 <> [] \/ fs2 <> [] -> exists p t m,
  jw_outer same (Z.max (Z.of_nat (length fs1)) (Z.of_nat (length fs2))) 1 fs1 fs2 true 0 0 0 = (p, t, m) /\
  distance_jaro_winkler same fs1 fs2 = if m =? 0 then 0%Q else jw_formula (Z.of_nat (length fs1)) (Z.of_nat (length fs2)) (Z.min p 4) t m.
Proof.
  intros Hne. unfold distance_jaro_winkler. set (c1 := Z.of_nat (length fs1)). set (c2 := Z.of_nat (length fs2)).
  assert (Hc : (c1 =? 0) && (c2 =? 0) = false).
  { destruct Hne as [H|H]; [destruct fs1 | destruct fs2]; try contradiction; unfold c1, c2; cbn [length].
    - reflexivity. - rewrite andb_false_r; reflexivity. }
  rewrite Hc. replace (if c2 <? c1 then c1 else c2) with (Z.max c1 c2) by (destruct (c2 <? c1) eqn:E; lia).
  destruct (jw_outer same (Z.max c1 c2) 1 fs1 fs2 true 0 0 0) as [[p t] m]. exists p, t, m. split; [reflexivity|].
  replace (if 4 <? p then 4 else p) with (Z.min p 4) by (destruct (4 <? p) eqn:E; lia). reflexivity.
Qed.
Lemma jw_no_match fs1 fs2 : fs1 <> [] \/ fs2 <> [] -> disjoint sameP fs1 fs2 -> distance_jaro_winkler same fs1 fs2 = 0%Q.
Proof.
  intros Hne D. destruct (jw_value fs1 fs2 Hne) as (p & t & m & E & ->).
  apply outer_facts in E as (_ & _ & (l & L1 & L2 & _) & _); [|lia]. destruct l as [|x l].
  - cbn in L1. replace m with 0 by lia. reflexivity.
  - destruct (L2 x (or_introl eq_refl)) as [H1 H2]. exfalso. exact (D x H1 H2).
Qed.
Lemma jw_both_empty : distance_jaro_winkler same [] [] = 1%Q.
Proof. reflexivity. Qed.

Context (PS : forall x y, sameP x y -> sameP y x) (PT : forall x y z, sameP x y -> sameP y z -> sameP x z).
Lemma jw_counts fs1 fs2 p t m : no_repeats sameP fs1 ->
  jw_outer same (Z.max (Z.of_nat (length fs1)) (Z.of_nat (length fs2))) 1 fs1 fs2 true 0 0 0 = (p, t, m) ->
  0 <= p /\ 0 <= t <= m /\ 0 <= m <= Z.of_nat (length fs1) /\ m <= Z.of_nat (length fs2).
Proof.
  intros N E. apply outer_facts in E as (P1 & P2 & (l & L1 & L2 & L3 & L4) & _); [|lia].
  split; [exact P1|]. split; [lia|]. split; [lia|].
  assert (length l <= length fs2)%nat; [|lia]. apply (pigeon same PS PT l fs2 (L4 N)).
  intros x Hx. destruct (L2 x Hx) as [_ O]. exact O.
Qed.
Lemma jw_range fs1 fs2 : no_repeats sameP fs1 -> (0 <= distance_jaro_winkler same fs1 fs2 <= 1)%Q.
Proof.
  intros N. destruct fs1 as [|f fs1], fs2 as [|g fs2]; [rewrite jw_both_empty; lra|..].
  { rewrite jw_no_match; [lra | right; discriminate | intros ? []]. }
  { rewrite jw_no_match; [lra | left; discriminate | intros x _ (y & [] & _)]. }
  destruct (jw_value (f :: fs1) (g :: fs2)) as (p & t & m & E & ->); [left; discriminate|].
  destruct (jw_counts _ _ _ _ _ N E) as (P1 & P2 & P3 & P4).
  destruct (m =? 0) eqn:Em; [lra|]. apply Z.eqb_neq in Em. apply formula_range; cbn [length] in *; lia.
Qed.
Lemma inner_skip max i f l1 : forall l2 j s t, (forall x, In x l1 -> same f x = false) -> j + Z.of_nat (length l1) <= i ->
  jw_inner same max i j f (l1 ++ l2) false s t = jw_inner same max i (j + Z.of_nat (length l1)) f l2 false s t.
Proof.
  induction l1 as [|x l1 IH]; intros l2 j s t H Hj; [cbn; f_equal; lia|]. cbn [app jw_inner length] in *.
  rewrite (H x (or_introl eq_refl)). cbn [negb]. rewrite !andb_true_r, !andb_false_r. cbn [andb].
  replace (i =? j) with false by (symmetry; apply Z.eqb_neq; lia). rewrite IH; [f_equal; lia | intros; apply H; right; assumption | lia].
Qed.
Lemma identical_outer max fs1 fs2 : 2 <= max -> no_repeats sameP fs1 -> Forall2 sameP fs1 fs2 -> 
  forall l1 r1 l2 r2 p m, fs1 = l1 ++ r1 -> fs2 = l2 ++ r2 -> length l1 = length l2 ->
  exists p', jw_outer same max (1 + Z.of_nat (length l1)) r1 fs2 true p 0 m = (p', 0, m + Z.of_nat (length r1)).
Proof.
  intros Hmax N F2 l1 r1. revert l1. induction r1 as [|x r1 IH]; intros l1 l2 r2 p m E1 E2 EL.
  - exists p. cbn. f_equal. lia.
  - cbn [jw_outer].
    assert (G : exists y r2', r2 = y :: r2' /\ same x y = true /\ forall z, In z l2 -> same x z = false).
    { subst fs1 fs2. apply Forall2_app_inv_l in F2 as (l2' & r2' & H1 & H2 & EE).
      assert (l2' = l2 /\ r2' = r2).
      { apply F2_length in H1. rewrite EL in H1. clear -EE H1. revert l2' H1 EE. induction l2; intros [|b l2'] H EE; try discriminate; [cbn in EE; auto|].
        cbn in EE. injection EE as <- EE. destruct (IHl2 l2' ltac:(cbn in H; lia) EE) as [-> ->]. auto. }
      destruct H as [-> ->]. inversion H2 as [|? y ? r2' Sxy H3 E3 E4]; subst. exists y, r2'. split; [reflexivity|]. split; [exact Sxy|].
      intros z Hz. destruct (same x z) eqn:C; [|reflexivity]. exfalso.
      (* z is matched by an earlier frame of the first thread *)
      assert (K : exists w, In w l1 /\ same w z = true).
      { clear -H1 Hz. induction H1 as [|a b l1 l2 S H IHf]; [destruct Hz|]. destruct Hz as [->|Hz]; [exists a; split; [left; reflexivity | exact S]|].
        destruct (IHf Hz) as (w & Hw & Sw). exists w. split; [right; exact Hw | exact Sw]. }
      destruct K as (w & Hw & Sw).
      assert (NR : ~ sameP w x).
      { clear -N Hw. induction l1 as [|a l1 IHl]; [destruct Hw|]. inversion N as [|? ? N1 N2]; subst. destruct Hw as [->|Hw]; [apply N1; apply in_app_iff; right; left; reflexivity | auto]. }
      apply NR. eapply PT; [exact Sw | apply PS; exact C]. }
    destruct G as (y & r2' & -> & Sxy & Hb).
    assert (EI : jw_inner same max (1 + Z.of_nat (length l1)) 1 x fs2 false true 0 = (true, true, 0)).
    { rewrite E2, inner_skip; [|exact Hb | lia]. rewrite <- EL. cbn [jw_inner]. rewrite Sxy. cbn [negb]. rewrite andb_false_r, andb_true_r.
      replace (Z.abs (1 + Z.of_nat (length l1) - (1 + Z.of_nat (length l1))) <=? Z.quot max 2 - 1) with true.
      2:{ symmetry. apply Z.leb_le. rewrite Z.sub_diag. cbn [Z.abs]. assert (1 <= Z.quot max 2) by (apply Z.quot_le_lower_bound; lia). lia. }
      rewrite Z.eqb_refl. cbn [negb andb]. destruct r2'; reflexivity. }
    rewrite EI. replace (1 + Z.of_nat (length l1) + 1) with (1 + Z.of_nat (length (l1 ++ [x]))) by (rewrite app_length; cbn [length]; lia).
    destruct (IH (l1 ++ [x]) (l2 ++ [y]) r2' (p + 1) (m + 1)) as (p' & E'); [rewrite <- app_assoc; exact E1 | rewrite <- app_assoc; exact E2 | rewrite !app_length; cbn; lia|].
    exists p'. rewrite E'. f_equal. cbn [length]. lia.
Qed.
Lemma jw_identical fs1 fs2 : no_repeats sameP fs1 -> (2 <= length fs1)%nat ->
  (distance_jaro_winkler same fs1 fs2 == 1)%Q <-> Forall2 sameP fs1 fs2.
Proof.
  intros N HL. destruct (jw_value fs1 fs2) as (p & t & m & E & V); [left; destruct fs1; [cbn in HL; lia | discriminate]|]. rewrite V.
  destruct (jw_counts _ _ _ _ _ N E) as (P1 & P2 & P3 & P4). split.
  - destruct (m =? 0) eqn:Em; [intros H; exfalso; revert H; unfold Qeq; cbn; lia|]. apply Z.eqb_neq in Em.
    rewrite formula_one by lia. intros (M1 & M2 & T0). apply outer_facts in E as (_ & _ & _ & H); [|lia].
    specialize (H ltac:(lia) T0).
    assert (G : forall l1 l2, length l1 = length l2 -> (forall k x, nth_error l1 k = Some x -> exists g, nth_error l2 k = Some g /\ same x g = true) -> Forall2 sameP l1 l2).
    { clear. induction l1 as [|x l1 IH]; intros [|y l2] EL Hk; try discriminate; constructor.
      - destruct (Hk O x eq_refl) as (g & G1 & G2). cbn in G1. congruence.
      - apply IH; [cbn in EL; lia|]. intros k z Hz. exact (Hk (S k) z Hz). }
    apply G; [lia|]. intros k x Hx. destruct (H k x Hx) as (g & _ & G2 & G3). exists g. split; [|exact G3].
    replace (Z.to_nat (1 + Z.of_nat k - 1)) with k in G2 by lia. exact G2.
  - intros F2. pose proof (F2_length _ _ _ F2) as EL.
    destruct (identical_outer (Z.max (Z.of_nat (length fs1)) (Z.of_nat (length fs2))) fs1 fs2 ltac:(lia) N F2 [] fs1 [] fs2 0 0 eq_refl eq_refl eq_refl) as (p' & E').
    change (1 + Z.of_nat (length (@nil F))) with 1 in E'. rewrite E in E'. injection E' as <- -> ->.
    replace (0 + Z.of_nat (length fs1) =? 0) with false by (symmetry; apply Z.eqb_neq; lia).
    rewrite formula_one by lia. lia.
Qed.
End JW.
