(** * Proofs: frames that threads share. *)
From Coq Require Import QArith Lia Lqa.
From Verif Require Import Base Types DistMatrixModel DistModel DistSpec DistProofs DistProofs2 DistProofs3 DistProofs4 SharedSpec.
Open Scope nat_scope.

Section Edits.
Context {F : Type} (same : F -> F -> Prop) (swap : Prop).
Notation edits := (edits same swap).
Lemma edits_cons_inv a b k : edits a b k -> forall x y a' b', a = x :: a' -> b = y :: b' -> exists k', k' <= k /\ edits a' b' k'.
Proof.
  intros H. destruct H as [|x y a b k S' H|x y a b k H|x a b k H|y a b k H|x1 x2 y1 y2 a b k W S1 S2 H]; intros u v a' b' E1 E2; try discriminate.
  - injection E1 as <- <-. injection E2 as <- <-. eauto.
  - injection E1 as <- <-. injection E2 as <- <-. exists k. auto.
  - injection E1 as <- <-. subst b. destruct (edits_drop_r _ _ _ _ _ H v b' eq_refl) as (k' & Le & H'). exists k'. auto.
  - injection E2 as <- <-. subst a. destruct (edits_drop_l _ _ _ _ _ H u a' eq_refl) as (k' & Le & H'). exists k'. auto.
  - injection E1 as <- <-. injection E2 as <- <-. exists (S k). split; [auto|]. now constructor.
Qed.
Lemma edits_strip p : forall p' a b k, Forall2 same p p' -> edits (p ++ a) (p' ++ b) k -> exists k', k' <= k /\ edits a b k'.
Proof.
  induction p as [|x p IH]; intros p' a b k H E; inversion H; subst; [eauto|]. cbn in E. destruct (edits_cons_inv _ _ _ E _ _ _ _ eq_refl eq_refl) as (k1 & L1 & E1).
  destruct (IH _ _ _ _ ltac:(eassumption) E1) as (k2 & L2 & E2). exists k2. split; [lia|exact E2].
Qed.
Lemma forall2_rev (p p' : list F) : Forall2 same p p' -> Forall2 same (rev p) (rev p').
Proof. induction 1; cbn; [constructor|]. apply Forall2_app; auto. Qed.
Lemma edits_strip_r s s' a b k : Forall2 same s s' -> edits (a ++ s) (b ++ s') k -> exists k', k' <= k /\ edits a b k'.
Proof.
  intros H E. apply edits_rev in E. rewrite !rev_app_distr in E. destruct (edits_strip _ _ _ _ _ (forall2_rev _ _ H) E) as (k' & Le & E').
  apply edits_rev in E'. rewrite !rev_involutive in E'. eauto.
Qed.
Lemma edits_same_0 p p' : Forall2 same p p' -> edits p p' 0.
Proof. induction 1; constructor; auto. Qed.
Lemma minimal_strip p p' s s' a b k : Forall2 same p p' -> Forall2 same s s' -> minimal_edits same swap a b k -> minimal_edits same swap (p ++ a ++ s) (p' ++ b ++ s') k.
Proof.
  intros P S' [E M]. split.
  - pose proof (edits_app _ _ _ _ _ (edits_same_0 _ _ P) _ _ _ (edits_app _ _ _ _ _ E _ _ _ (edits_same_0 _ _ S'))) as X. now rewrite Nat.add_0_r in X.
  - intros k' E'. destruct (edits_strip _ _ _ _ _ P E') as (k1 & L1 & E1). destruct (edits_strip_r _ _ _ _ _ S' E1) as (k2 & L2 & E2). specialize (M _ E2). lia.
Qed.
Lemma minimal_unique a b k k' : minimal_edits same swap a b k -> minimal_edits same swap a b k' -> k = k'.
Proof. intros [E M] [E' M']. specialize (M _ E'). specialize (M' _ E). lia. Qed.
(** A frame less costs at most one edit more. *)
Lemma edits_less a b k : edits a b k -> forall before x after, a = before ++ x :: after -> exists k', k' <= S k /\ edits (before ++ after) b k'.
Proof.
  induction 1 as [|x y a b k S' H IH|x y a b k H IH|x a b k H IH|y a b k H IH|x1 x2 y1 y2 a b k W S1 S2 H IH]; intros p z q E.
  - destruct p; discriminate.
  - destruct p as [|c p]; cbn in E; injection E as -> ->.
    + exists (S k). split; [auto|]. now constructor.
    + destruct (IH p z q eq_refl) as (k' & Le & H'). exists k'. split; [auto|]. now constructor.
  - destruct p as [|c p]; cbn in E; injection E as -> ->.
    + exists (S k). split; [auto|]. now constructor.
    + destruct (IH p z q eq_refl) as (k' & Le & H'). exists (S k'). split; [lia|]. now constructor.
  - destruct p as [|c p]; cbn in E; injection E as -> ->.
    + exists k. split; [auto|exact H].
    + destruct (IH p z q eq_refl) as (k' & Le & H'). exists (S k'). split; [lia|]. now constructor.
  - destruct (IH p z q E) as (k' & Le & H'). exists (S k'). split; [lia|]. now constructor.
  - destruct p as [|c [|d p]]; cbn in E.
    + injection E as -> <-. exists (S k). split; [auto|]. cbn. apply e_keep; [exact S2|]. now constructor.
    + injection E as -> -> ->. exists (S k). split; [auto|]. cbn. apply e_insert. apply e_keep; [exact S1|]. exact H.
    + injection E as -> -> ->. destruct (IH p z q eq_refl) as (k' & Le & H'). exists (S k'). split; [lia|]. cbn. now apply e_swap.
Qed.
(** A frame more costs at most one edit more without exchanges, two with them. *)
Lemma edits_more e a b k : (e = 1 /\ ~ swap) \/ e = 2 -> edits a b k -> forall before x after, a = before ++ after -> exists k', k' <= e + k /\ edits (before ++ x :: after) b k'.
Proof.
  intros He. induction 1 as [|x y a b k S' H IH|x y a b k H IH|x a b k H IH|y a b k H IH|x1 x2 y1 y2 a b k W S1 S2 H IH]; intros p z q E.
  - destruct p; [|discriminate]. cbn in E. subst q. exists 1. split; [lia|]. cbn. repeat constructor.
  - destruct p as [|c p]; cbn in E.
    + subst q. exists (S k). split; [lia|]. cbn. apply e_delete. now apply e_keep.
    + injection E as -> ->. destruct (IH p z q eq_refl) as (k' & Le & H'). exists k'. split; [lia|]. now constructor.
  - destruct p as [|c p]; cbn in E.
    + subst q. exists (S (S k)). split; [lia|]. cbn. apply e_delete. now apply e_change.
    + injection E as -> ->. destruct (IH p z q eq_refl) as (k' & Le & H'). exists (S k'). split; [lia|]. now constructor.
  - destruct p as [|c p]; cbn in E.
    + subst q. exists (S (S k)). split; [lia|]. cbn. apply e_delete. now apply e_delete.
    + injection E as -> ->. destruct (IH p z q eq_refl) as (k' & Le & H'). exists (S k'). split; [lia|]. now constructor.
  - destruct (IH p z q E) as (k' & Le & H'). exists (S k'). split; [lia|]. now constructor.
  - destruct p as [|c [|d p]]; cbn in E.
    + subst q. exists (S (S k)). split; [lia|]. cbn. apply e_delete. now apply e_swap.
    + injection E as -> <-. destruct He as [[_ He]|He]; [now exfalso; apply He|]. exists (3 + k). split; [lia|]. cbn. apply e_insert. apply e_keep; [exact S1|]. apply e_delete. now apply e_delete.
    + injection E as -> -> ->. destruct (IH p z q eq_refl) as (k' & Le & H'). exists (S k'). split; [lia|]. cbn. now apply e_swap.
Qed.
Lemma edits_changed a b k : edits a b k -> forall before x y after, a = before ++ x :: after -> exists k', k' <= S k /\ edits (before ++ y :: after) b k'.
Proof.
  induction 1 as [|x y a b k S' H IH|x y a b k H IH|x a b k H IH|y a b k H IH|x1 x2 y1 y2 a b k W S1 S2 H IH]; intros p z w q E.
  - destruct p; discriminate.
  - destruct p as [|c p]; cbn in E; injection E as -> ->.
    + exists (S k). split; [lia|]. now constructor.
    + destruct (IH p z w q eq_refl) as (k' & Le & H'). exists k'. split; [lia|]. now constructor.
  - destruct p as [|c p]; cbn in E; injection E as -> ->.
    + exists (S k). split; [lia|]. now constructor.
    + destruct (IH p z w q eq_refl) as (k' & Le & H'). exists (S k'). split; [lia|]. now constructor.
  - destruct p as [|c p]; cbn in E; injection E as -> ->.
    + exists (S k). split; [lia|]. now constructor.
    + destruct (IH p z w q eq_refl) as (k' & Le & H'). exists (S k'). split; [lia|]. now constructor.
  - destruct (IH p z w q E) as (k' & Le & H'). exists (S k'). split; [lia|]. now constructor.
  - destruct p as [|c [|d p]]; cbn in E.
    + injection E as -> <-. exists (S (S k)). split; [lia|]. cbn. apply e_change. now apply e_change.
    + injection E as -> -> ->. exists (S (S k)). split; [lia|]. cbn. apply e_change. now apply e_change.
    + injection E as -> -> ->. destruct (IH p z w q eq_refl) as (k' & Le & H'). exists (S k'). split; [lia|]. cbn. now apply e_swap.
Qed.
Lemma minimal_more e a a' b k k' : (e = 1 /\ ~ swap) \/ e = 2 -> one_more a a' -> minimal_edits same swap a b k -> minimal_edits same swap a' b k' -> k <= S k' /\ k' <= e + k.
Proof.
  intros He (p & x & q & -> & ->) [E M] [E' M']. destruct (edits_less _ _ _ E' p x q eq_refl) as (k1 & L1 & E1). specialize (M _ E1).
  destruct (edits_more e _ _ _ He E p x q eq_refl) as (k2 & L2 & E2). specialize (M' _ E2). lia.
Qed.
Lemma minimal_changed a a' b k k' : one_changed a a' -> minimal_edits same swap a b k -> minimal_edits same swap a' b k' -> k <= S k' /\ k' <= S k.
Proof.
  intros (p & x & y & q & -> & ->) [E M] [E' M']. destruct (edits_changed _ _ _ E' p y x q eq_refl) as (k1 & L1 & E1). specialize (M _ E1).
  destruct (edits_changed _ _ _ E p x y q eq_refl) as (k2 & L2 & E2). specialize (M' _ E2). lia.
Qed.
End Edits.

Lemma forall2_len {A B} (R : A -> B -> Prop) l l' : Forall2 R l l' -> length l = length l'.
Proof. induction 1; cbn; congruence. Qed.
Lemma longer_strip {F} (P P' A B S S' : list F) : length P = length P' -> length S = length S' -> longer (P ++ A ++ S) (P' ++ B ++ S') = length P + longer A B + length S.
Proof. intros H H'. unfold longer. rewrite !app_length. lia. Qed.
Lemma shared_edits F (same : F -> F -> bool) tr ty P P' A B S S' : (tr = true -> partial_equivalence (fun x y => same x y = true)) -> fits (P ++ A ++ S) (P' ++ B ++ S') ->
  Forall2 (fun x y => same x y = true) P P' -> Forall2 (fun x y => same x y = true) S S' -> A <> [] \/ B <> [] ->
  exists k, sr_distance same (edit_type tr) (ty, A) (ty, B) = Ok (quotient k (longer A B)) /\
    sr_distance same (edit_type tr) (ty, P ++ A ++ S) (ty, P' ++ B ++ S') = Ok (quotient k (length P + longer A B + length S)).
Proof.
  intros Eq Fi HP HS N. pose proof (forall2_len _ _ _ HP) as LP. pose proof (forall2_len _ _ _ HS) as LS.
  assert (Fi' : fits A B) by (unfold fits in *; rewrite !app_length in Fi; lia).
  destruct (edit_value same tr ty A B Fi' N Eq) as (k & M & E). exists k. split; [exact E|].
  assert (N' : P ++ A ++ S <> [] \/ P' ++ B ++ S' <> []).
  { destruct N as [N|N]; [left|right]; intros X; apply app_eq_nil in X; destruct X as [_ X]; apply app_eq_nil in X; now destruct X. }
  destruct (edit_value same tr ty _ _ Fi N' Eq) as (k' & M' & E'). rewrite E'. rewrite (longer_strip P P' A B S S' LP LS).
  rewrite (minimal_unique _ _ _ _ _ _ M' (minimal_strip _ _ _ _ _ _ _ _ _ HP HS M)). reflexivity.
Qed.
Lemma quotient_le k n m : 0 < n -> n <= m -> (quotient k m <= quotient k n)%Q.
Proof.
  intros H1 H2. unfold quotient. apply Qle_shift_div_r; [unfold Qlt; cbn; lia|].
  unfold Qdiv. setoid_replace (inject_Z (Z.of_nat k) * / inject_Z (Z.of_nat n) * inject_Z (Z.of_nat m))%Q with (inject_Z (Z.of_nat k) * inject_Z (Z.of_nat m) / inject_Z (Z.of_nat n))%Q by (unfold Qdiv; ring).
  apply Qle_shift_div_l; [unfold Qlt; cbn; lia|]. rewrite <- !inject_Z_mult. rewrite <- Zle_Qle. nia.
Qed.

(** ** Jaccard *)
Section Jaccard.
Context {F : Type} (same : F -> F -> bool).
Notation R := (fun x y => same x y = true).
Hypothesis Eq : equivalence R.
Lemma occurs_dec x l : occurs R x l \/ ~ occurs R x l.
Proof.
  induction l as [|y l [(z & I' & H)|N]]; [right; intros (z & [] & _)|left; exists z; split; [now right|exact H]|].
  destruct (same x y) eqn:E; [left; exists y; split; [now left|exact E]|]. right. intros (z & [<-|I'] & H); [congruence|]. apply N. now exists z.
Qed.
Lemma same_frames_cons c l : occurs R c l -> same_frames R (c :: l) l.
Proof.
  destruct Eq as (Rf & Sy & Tr). intros O. split.
  - intros x [<-|I']; [exact O|exists x; split; [exact I'|apply Rf]].
  - intros x I'. exists x. split; [now right|apply Rf].
Qed.
Lemma ratio_up i u : i <= u -> 0 < u -> (1 - inject_Z (Z.of_nat (S i)) / inject_Z (Z.of_nat u) <= 1 - inject_Z (Z.of_nat i) / inject_Z (Z.of_nat u))%Q.
Proof.
  intros H P. assert (X : (inject_Z (Z.of_nat i) / inject_Z (Z.of_nat u) <= inject_Z (Z.of_nat (S i)) / inject_Z (Z.of_nat u))%Q).
  { unfold Qdiv. apply Qmult_le_compat_r; [rewrite <- Zle_Qle; lia|]. apply Qinv_le_0_compat. change 0%Q with (inject_Z 0). rewrite <- Zle_Qle. lia. }
  lra.
Qed.
Lemma ratio_both i u : i <= u -> 0 < u -> (1 - inject_Z (Z.of_nat (S i)) / inject_Z (Z.of_nat (S u)) <= 1 - inject_Z (Z.of_nat i) / inject_Z (Z.of_nat u))%Q.
Proof.
  intros H P. assert (X : (inject_Z (Z.of_nat i) / inject_Z (Z.of_nat u) <= inject_Z (Z.of_nat (S i)) / inject_Z (Z.of_nat (S u)))%Q).
  { apply Qle_shift_div_l; [change 0%Q with (inject_Z 0); rewrite <- Zlt_Qlt; lia|].
    setoid_replace (inject_Z (Z.of_nat i) / inject_Z (Z.of_nat u) * inject_Z (Z.of_nat (S u)))%Q with (inject_Z (Z.of_nat i) * inject_Z (Z.of_nat (S u)) / inject_Z (Z.of_nat u))%Q by (unfold Qdiv; ring).
    apply Qle_shift_div_r; [change 0%Q with (inject_Z 0); rewrite <- Zlt_Qlt; lia|]. rewrite <- !inject_Z_mult, <- Zle_Qle. nia. }
  lra.
Qed.
Lemma common_smaller l1 l2 I' U : common R l1 l2 I' -> distinct R (l1 ++ l2) U -> 0 < length U -> length I' <= length U.
Proof.
  intros C D P. pose proof (jaccard_range same Eq l1 l2) as [H _]. rewrite (jaccard_value same Eq l1 l2 I' U C D) in H.
  replace (Z.of_nat (length U) =? 0)%Z with false in H by (symmetry; apply Z.eqb_neq; lia).
  assert (X : (inject_Z (Z.of_nat (length I')) / inject_Z (Z.of_nat (length U)) <= 1)%Q) by lra.
  assert (Y : (inject_Z (Z.of_nat (length I')) <= 1 * inject_Z (Z.of_nat (length U)))%Q).
  { setoid_replace (inject_Z (Z.of_nat (length I')))%Q with (inject_Z (Z.of_nat (length I')) / inject_Z (Z.of_nat (length U)) * inject_Z (Z.of_nat (length U)))%Q.
    - apply Qmult_le_compat_r; [exact X|]. change 0%Q with (inject_Z 0). rewrite <- Zle_Qle. lia.
    - field. change 0%Q with (inject_Z 0). rewrite inject_Z_injective. lia. }
  rewrite Qmult_1_l, <- Zle_Qle in Y. lia.
Qed.
Lemma jaccard_left c l1 l2 : occurs R c l1 -> ~ occurs R c l2 -> (distance_jaccard same (c :: l1) (c :: l2) <= distance_jaccard same l1 l2)%Q.
Proof.
  intros O N. pose proof Eq as (Rf & Sy & Tr). destruct (jaccard_ex same Eq l1 l2) as (I' & U & C & D).
  assert (PU : 0 < length U). { destruct O as (y & Iy & _). destruct D as (_ & _ & D). destruct (D y) as (z & Iz & _); [apply in_or_app; now left|]. destruct U; [destruct Iz|cbn; lia]. }
  assert (C' : common R (c :: l1) (c :: l2) (c :: I')).
  { destruct C as (C1 & C2 & C3). split; [|split].
    - constructor; [|exact C1]. intros y Iy H. destruct (C2 y Iy) as [_ (z & Iz & Hz)]. apply N. exists z. split; [exact Iz|]. exact (Tr _ _ _ H Hz).
    - intros x [<-|Ix]; [split; [now left|exists c; split; [now left|apply Rf]]|]. destruct (C2 x Ix) as [X1 (z & Iz & Hz)]. split; [now right|]. exists z. split; [now right|exact Hz].
    - intros x Ix (z & Iz & Hz). assert (K : R x c \/ (In x l1 /\ occurs R x l2)).
      { destruct Ix as [<-|Ix]; [left; apply Rf|]. destruct Iz as [<-|Iz]; [now left|]. right. split; [exact Ix|now exists z]. }
      destruct K as [K|[K1 K2]]; [exists c; split; [now left|exact K]|]. destruct (C3 x K1 K2) as (y & Iy & Hy). exists y. split; [now right|exact Hy]. }
  assert (D' : distinct R ((c :: l1) ++ c :: l2) U).
  { destruct D as (D1 & D2 & D3). split; [exact D1|]. split.
    - intros x Ix. specialize (D2 x Ix). apply in_app_or in D2. apply in_or_app. destruct D2; [left; now right|right; now right].
    - intros x Ix. assert (K : x = c \/ In x (l1 ++ l2)).
      { apply in_app_or in Ix. destruct Ix as [[<-|Ix]|[<-|Ix]]; auto; right; apply in_or_app; auto. }
      destruct K as [->|K]; [|exact (D3 x K)]. destruct O as (y & Iy & Hy). destruct (D3 y) as (z & Iz & Hz); [apply in_or_app; now left|]. exists z. split; [exact Iz|exact (Tr _ _ _ Hy Hz)]. }
  rewrite (jaccard_value same Eq _ _ _ _ C D), (jaccard_value same Eq _ _ _ _ C' D').
  replace (Z.of_nat (length U) =? 0)%Z with false by (symmetry; apply Z.eqb_neq; lia). cbn [length]. apply ratio_up; [|exact PU]. exact (common_smaller _ _ _ _ C D PU).
Qed.
Lemma jaccard_neither c l1 l2 : ~ occurs R c l1 -> ~ occurs R c l2 -> (distance_jaccard same (c :: l1) (c :: l2) <= distance_jaccard same l1 l2)%Q.
Proof.
  intros N1 N. pose proof Eq as (Rf & Sy & Tr). destruct (jaccard_ex same Eq l1 l2) as (I' & U & C & D).
  assert (C' : common R (c :: l1) (c :: l2) (c :: I')).
  { destruct C as (C1 & C2 & C3). split; [|split].
    - constructor; [|exact C1]. intros y Iy H. destruct (C2 y Iy) as [_ (z & Iz & Hz)]. apply N. exists z. split; [exact Iz|]. exact (Tr _ _ _ H Hz).
    - intros x [<-|Ix]; [split; [now left|exists c; split; [now left|apply Rf]]|]. destruct (C2 x Ix) as [X1 (z & Iz & Hz)]. split; [now right|]. exists z. split; [now right|exact Hz].
    - intros x Ix (z & Iz & Hz). assert (K : R x c \/ (In x l1 /\ occurs R x l2)).
      { destruct Ix as [<-|Ix]; [left; apply Rf|]. destruct Iz as [<-|Iz]; [now left|]. right. split; [exact Ix|now exists z]. }
      destruct K as [K|[K1 K2]]; [exists c; split; [now left|exact K]|]. destruct (C3 x K1 K2) as (y & Iy & Hy). exists y. split; [now right|exact Hy]. }
  assert (D' : distinct R ((c :: l1) ++ c :: l2) (c :: U)).
  { destruct D as (D1 & D2 & D3). split; [|split].
    - constructor; [|exact D1]. intros y Iy H. specialize (D2 y Iy). apply in_app_or in D2. destruct D2 as [D2|D2]; [apply N1|apply N]; now exists y.
    - intros x [<-|Ix]; [now left|]. specialize (D2 x Ix). apply in_app_or in D2. apply in_or_app. destruct D2; [left; now right|right; now right].
    - intros x Ix. assert (K : x = c \/ In x (l1 ++ l2)).
      { apply in_app_or in Ix. destruct Ix as [[<-|Ix]|[<-|Ix]]; auto; right; apply in_or_app; auto. }
      destruct K as [->|K]; [exists c; split; [now left|apply Rf]|]. destruct (D3 x K) as (z & Iz & Hz). exists z. split; [now right|exact Hz]. }
  rewrite (jaccard_value same Eq _ _ _ _ C D), (jaccard_value same Eq _ _ _ _ C' D').
  replace (Z.of_nat (length (c :: U)) =? 0)%Z with false by (symmetry; apply Z.eqb_neq; cbn; lia). destruct (Z.eqb_spec (Z.of_nat (length U)) 0) as [Z'|Z'].
  - assert (U = []) by (destruct U; [reflexivity|cbn in Z'; lia]). subst U. destruct I' as [|y I']; [cbn [length]; vm_compute; discriminate|]. exfalso. destruct C as (_ & C2 & _). destruct (C2 y (or_introl eq_refl)) as [X _].
    destruct D as (_ & _ & D). destruct (D y) as (z & [] & _). apply in_or_app. now left.
  - cbn [length]. assert (PU : 0 < length U) by lia. apply ratio_both; [|exact PU]. exact (common_smaller _ _ _ _ C D PU).
Qed.
Lemma jaccard_cons c l1 l2 : (distance_jaccard same (c :: l1) (c :: l2) <= distance_jaccard same l1 l2)%Q.
Proof.
  destruct (occurs_dec c l1) as [O1|N1], (occurs_dec c l2) as [O2|N2].
  - rewrite (jaccard_same_frames same Eq _ _ (c :: l2) (same_frames_cons c l1 O1)), (jaccard_sym same Eq l1 (c :: l2)), (jaccard_same_frames same Eq _ _ l1 (same_frames_cons c l2 O2)), (jaccard_sym same Eq l2 l1). apply Qle_refl.
  - now apply jaccard_left.
  - rewrite (jaccard_sym same Eq (c :: l1)), (jaccard_sym same Eq l1). now apply jaccard_left.
  - now apply jaccard_neither.
Qed.
Lemma jaccard_app p l1 l2 : (distance_jaccard same (p ++ l1) (p ++ l2) <= distance_jaccard same l1 l2)%Q.
Proof. induction p as [|c p IH]; [apply Qle_refl|]. cbn [app]. eapply Qle_trans; [apply jaccard_cons|exact IH]. Qed.
Lemma forall2_in (p p' : list F) : Forall2 R p p' -> (forall x, In x p -> occurs R x p') /\ (forall x, In x p' -> occurs R x p).
Proof.
  pose proof Eq as (Rf & Sy & Tr). induction 1 as [|x y p p' H _ [I1 I2]]; [split; intros ? []|]. split.
  - intros z [<-|Iz]; [exists y; split; [now left|exact H]|]. destruct (I1 z Iz) as (w & Iw & Hw). exists w. split; [now right|exact Hw].
  - intros z [<-|Iz]; [exists x; split; [now left|now apply Sy]|]. destruct (I2 z Iz) as (w & Iw & Hw). exists w. split; [now right|exact Hw].
Qed.
Lemma occurs_in_app x l m : occurs R x (l ++ m) <-> occurs R x l \/ occurs R x m.
Proof.
  split; [intros (y & Iy & H); apply in_app_or in Iy; destruct Iy; [left|right]; now exists y|].
  intros [(y & Iy & H)|(y & Iy & H)]; exists y; (split; [apply in_or_app; auto|exact H]).
Qed.
Lemma occurs_self x l : In x l -> occurs R x l. Proof. intros H. exists x. split; [exact H|destruct Eq as (Rf & _); apply Rf]. Qed.
Lemma jaccard_shared P P' A B S S' : Forall2 R P P' -> Forall2 R S S' -> (distance_jaccard same (P ++ A ++ S) (P' ++ B ++ S') <= distance_jaccard same A B)%Q.
Proof.
  intros HP HS. destruct (forall2_in _ _ HP) as [P1 P2]. destruct (forall2_in _ _ HS) as [S1 S2].
  assert (X : same_frames R (P ++ A ++ S) ((P ++ S) ++ A)).
  { split; intros x Ix; rewrite !occurs_in_app; rewrite !in_app_iff in Ix; pose proof (occurs_self x P); pose proof (occurs_self x A); pose proof (occurs_self x S); tauto. }
  assert (Y : same_frames R (P' ++ B ++ S') ((P ++ S) ++ B)).
  { split; intros x Ix; rewrite !occurs_in_app; rewrite !in_app_iff in Ix; specialize (P1 x); specialize (P2 x); specialize (S1 x); specialize (S2 x); pose proof (occurs_self x B); tauto. }
  rewrite (jaccard_same_frames same Eq _ _ _ X), (jaccard_sym same Eq), (jaccard_same_frames same Eq _ _ _ Y), (jaccard_sym same Eq). apply jaccard_app.
Qed.
End Jaccard.

(** ** In terms of the library's function *)
Lemma shared_closer F (same : F -> F -> bool) tr ty P P' A B S S' : (tr = true -> partial_equivalence (fun x y => same x y = true)) -> fits (P ++ A ++ S) (P' ++ B ++ S') ->
  Forall2 (fun x y => same x y = true) P P' -> Forall2 (fun x y => same x y = true) S S' -> A <> [] \/ B <> [] ->
  exists d d', sr_distance same (edit_type tr) (ty, A) (ty, B) = Ok d /\ sr_distance same (edit_type tr) (ty, P ++ A ++ S) (ty, P' ++ B ++ S') = Ok d' /\ (d' <= d)%Q.
Proof.
  intros Eq Fi HP HS N. destruct (shared_edits F same tr ty P P' A B S S' Eq Fi HP HS N) as (k & E1 & E2). do 2 eexists. split; [exact E1|]. split; [exact E2|].
  apply quotient_le; [|lia]. unfold longer. destruct N as [N|N]; [destruct A; [contradiction|]|destruct B; [contradiction|]]; cbn [length]; lia.
Qed.
Lemma shared_jaccard F (same : F -> F -> bool) ty P P' A B S S' : equivalence (fun x y => same x y = true) ->
  Forall2 (fun x y => same x y = true) P P' -> Forall2 (fun x y => same x y = true) S S' ->
  exists d d', sr_distance same JACCARD (ty, A) (ty, B) = Ok d /\ sr_distance same JACCARD (ty, P ++ A ++ S) (ty, P' ++ B ++ S') = Ok d' /\ (d' <= d)%Q.
Proof.
  intros Eq HP HS. unfold sr_distance. cbn [fst snd]. rewrite Nat.eqb_refl. cbn [negb]. do 2 eexists. split; [reflexivity|]. split; [reflexivity|]. now apply jaccard_shared.
Qed.
Lemma one_frame F (same : F -> F -> bool) tr ty A A' B : (tr = true -> partial_equivalence (fun x y => same x y = true)) -> fits A' B -> A <> [] \/ B <> [] -> one_more A A' ->
  exists k k', sr_distance same (edit_type tr) (ty, A) (ty, B) = Ok (quotient k (longer A B)) /\ sr_distance same (edit_type tr) (ty, A') (ty, B) = Ok (quotient k' (longer A' B)) /\
    k <= k' + 1 /\ k' <= k + (if tr then 2 else 1).
Proof.
  intros Eq Fi N O. assert (Fi' : fits A B) by (destruct O as (p & x & q & -> & ->); unfold fits in *; rewrite app_length in *; cbn [length] in Fi; lia).
  assert (N' : A' <> [] \/ B <> []) by (left; destruct O as (p & x & q & _ & ->); intros X; apply app_eq_nil in X; destruct X; discriminate).
  destruct (edit_value same tr ty A B Fi' N Eq) as (k & M & E). destruct (edit_value same tr ty A' B Fi N' Eq) as (k' & M' & E').
  exists k, k'. split; [exact E|]. split; [exact E'|]. assert (He : ((if tr then 2 else 1) = 1 /\ ~ tr = true) \/ (if tr then 2 else 1) = 2) by (destruct tr; [now right|left; split; [reflexivity|discriminate]]).
  destruct (minimal_more _ _ _ _ _ _ _ _ He O M M'). lia.
Qed.
Lemma changed_frame F (same : F -> F -> bool) tr ty A A' B : (tr = true -> partial_equivalence (fun x y => same x y = true)) -> fits A B -> one_changed A A' ->
  exists k k', sr_distance same (edit_type tr) (ty, A) (ty, B) = Ok (quotient k (longer A B)) /\ sr_distance same (edit_type tr) (ty, A') (ty, B) = Ok (quotient k' (longer A B)) /\
    k <= k' + 1 /\ k' <= k + 1.
Proof.
  intros Eq Fi O. assert (Le : length A' = length A) by (destruct O as (p & x & y & q & -> & ->); rewrite !app_length; reflexivity).
  assert (N : A <> [] /\ A' <> []) by (destruct O as (p & x & y & q & -> & ->); split; intros X; apply app_eq_nil in X; destruct X; discriminate).
  assert (Fi' : fits A' B) by (unfold fits in *; now rewrite Le). destruct N as [N N'].
  destruct (edit_value same tr ty A B Fi (or_introl N) Eq) as (k & M & E). destruct (edit_value same tr ty A' B Fi' (or_introl N') Eq) as (k' & M' & E').
  exists k, k'. split; [exact E|]. split; [rewrite E'; unfold longer; now rewrite Le|]. destruct (minimal_changed _ _ _ _ _ _ _ O M M'). lia.
Qed.

(** ** Threads listed from the bottom *)
Lemma minimal_rev {F} (same : F -> F -> Prop) swap a b k : minimal_edits same swap a b k -> minimal_edits same swap (rev a) (rev b) k.
Proof.
  intros [E M]. split; [now apply edits_rev|]. intros k' E'. apply edits_rev in E'. rewrite !rev_involutive in E'. now apply M.
Qed.
Lemma rev_nonempty {F} (a : list F) : a <> [] -> rev a <> [].
Proof. intros N X. apply N. rewrite <- (rev_involutive a), X. reflexivity. Qed.
Lemma edits_upside_down F (same : F -> F -> bool) tr ty A B : (tr = true -> partial_equivalence (fun x y => same x y = true)) -> fits A B ->
  sr_distance same (edit_type tr) (ty, rev A) (ty, rev B) = sr_distance same (edit_type tr) (ty, A) (ty, B).
Proof.
  intros Eq Fi. assert (K : (A = [] /\ B = []) \/ (A <> [] \/ B <> [])) by (destruct A; [destruct B; [now left|]|]; right; [right|left]; discriminate).
  destruct K as [[-> ->]|N]; [reflexivity|]. assert (Fi' : fits (rev A) (rev B)) by (unfold fits in *; now rewrite !rev_length).
  assert (N' : rev A <> [] \/ rev B <> []) by (destruct N as [N|N]; [left|right]; now apply rev_nonempty).
  destruct (edit_value same tr ty A B Fi N Eq) as (k & M & E). destruct (edit_value same tr ty (rev A) (rev B) Fi' N' Eq) as (k' & M' & E').
  rewrite E, E'. unfold longer. rewrite !rev_length. now rewrite (minimal_unique _ _ _ _ _ _ M' (minimal_rev _ _ _ _ _ M)).
Qed.
Lemma jaccard_upside_down F (same : F -> F -> bool) ty A B : equivalence (fun x y => same x y = true) ->
  sr_distance same JACCARD (ty, rev A) (ty, rev B) = sr_distance same JACCARD (ty, A) (ty, B).
Proof.
  intros Eq. unfold sr_distance. cbn [fst snd]. rewrite Nat.eqb_refl. cbn [negb]. f_equal. destruct Eq as (Rf & Sy & Tr).
  assert (X : forall l, same_frames (fun x y => same x y = true) (rev l) l) by (intros l; split; intros x I'; exists x; (split; [|apply Rf]); [now apply in_rev|now apply in_rev in I']).
  assert (Eq : equivalence (fun x y => same x y = true)) by now split.
  rewrite (jaccard_same_frames same Eq _ _ _ (X A)), (jaccard_sym same Eq A (rev B)), (jaccard_same_frames same Eq _ _ _ (X B)). apply jaccard_sym. exact Eq.
Qed.
