(** * The values sr_distance returns. *)
From Coq Require Import QArith Reals.
From Verif Require Import Base Types DistMatrixModel DistModel DistSpec DistProofs DistProofs2 DistProofs3 DistFloat CmpModel CmpProofs.
Open Scope Z_scope.

Definition fits {F} (A B : list F) : Prop := Z.of_nat (length A) + Z.of_nat (length B) + 3 <= int_max.
Definition quotient (k n : nat) : Q := (inject_Z (Z.of_nat k) / inject_Z (Z.of_nat n))%Q.
Definition longer {F} (A B : list F) : nat := Nat.max (length A) (length B).

Section D.
Context {F : Type} (same : F -> F -> bool).
Notation S := (fun x y => same x y = true).
Definition edit_type (tr : bool) : distance_type := if tr then DAMERAU_LEVENSHTEIN else LEVENSHTEIN.

Lemma dist_edit_unfold tr (ty : nat) A B : sr_distance same (edit_type tr) (ty, A) (ty, B) = distance_levenshtein same tr A B.
Proof. unfold sr_distance. cbn [fst snd]. rewrite Nat.eqb_refl. now destruct tr. Qed.

Lemma edit_value tr ty A B : fits A B -> A <> [] \/ B <> [] -> (tr = true -> partial_equivalence S) ->
  exists k, minimal_edits S (tr = true) A B k /\
    sr_distance same (edit_type tr) (ty, A) (ty, B) = Ok (quotient k (longer A B)).
Proof.
  intros F1 N P. destruct (lev_minimal same tr A B F1 N P) as (k & E & M). exists k. split; [exact M|].
  rewrite dist_edit_unfold. unfold distance_levenshtein. rewrite E. cbn [bind]. unfold quotient, longer.
  now rewrite Nat2Z.inj_max.
Qed.
Lemma edit_value_any tr ty A B : fits A B -> A <> [] \/ B <> [] ->
  exists k, (k <= longer A B)%nat /\ sr_distance same (edit_type tr) (ty, A) (ty, B) = Ok (quotient k (longer A B)).
Proof.
  intros F1 N. destruct (lev_range same tr A B F1 N) as (r & k & E & R & K). exists (Z.to_nat r).
  split; [unfold longer; lia|].
  rewrite dist_edit_unfold. unfold distance_levenshtein. rewrite E. cbn [bind]. unfold quotient, longer.
  rewrite Nat2Z.inj_max, Z2Nat.id by lia. now rewrite K.
Qed.
Lemma edit_empty tr ty : sr_distance same (edit_type tr) (ty, []) (ty, []) = Ok 0%Q.
Proof. rewrite dist_edit_unfold. unfold distance_levenshtein. now rewrite lev_empty. Qed.

Lemma quotient_pos n : (0 < n)%nat -> (0 < inject_Z (Z.of_nat n))%Q.
Proof. intros H. unfold Qlt; cbn. lia. Qed.
Lemma quotient_le k k' n : (k <= k')%nat -> (0 < n)%nat -> (quotient k n <= quotient k' n)%Q.
Proof.
  intros H N. unfold quotient, Qdiv. apply Qmult_le_compat_r; [unfold Qle; cbn; lia|].
  apply Qlt_le_weak, Qinv_lt_0_compat, quotient_pos, N.
Qed.
Lemma quotient_inj k k' n : (0 < n)%nat -> (quotient k n == quotient k' n)%Q -> k = k'.
Proof.
  intros N E. unfold quotient in E. pose proof (quotient_pos n N) as P.
  apply Qmult_inj_r in E; [unfold Qeq in E; cbn in E; lia|].
  intros Z0. apply Qinv_lt_0_compat in P. rewrite Z0 in P. now apply Qlt_irrefl in P.
Qed.
Lemma quotient_0 n : (quotient 0 n == 0)%Q.
Proof. unfold quotient, Qdiv. cbn. reflexivity. Qed.
Lemma quotient_1 n : (0 < n)%nat -> (quotient n n == 1)%Q.
Proof. intros N. unfold quotient, Qdiv. apply Qmult_inv_r. pose proof (quotient_pos n N). intros E; rewrite E in H; now apply Qlt_irrefl in H. Qed.
Lemma longer_pos A B : A <> [] \/ B <> [] -> (0 < @longer F A B)%nat.
Proof. unfold longer. destruct A, B; cbn; intros [H|H]; try congruence; lia. Qed.

Lemma edit_le ty A B : fits A B -> exists d d',
  sr_distance same DAMERAU_LEVENSHTEIN (ty, A) (ty, B) = Ok d /\ sr_distance same LEVENSHTEIN (ty, A) (ty, B) = Ok d' /\ (d <= d')%Q.
Proof.
  intros F1.
  assert (N : (A = [] /\ B = []) \/ (A <> [] \/ B <> [])).
  { destruct A; [destruct B; [left; auto|right; right; discriminate]|right; left; discriminate]. }
  destruct N as [[-> ->]|N].
  - exists 0%Q, 0%Q. split; [exact (edit_empty true ty)|]. split; [exact (edit_empty false ty)|]. apply Qle_refl.
  - change DAMERAU_LEVENSHTEIN with (edit_type true). change LEVENSHTEIN with (edit_type false). rewrite !dist_edit_unfold.
    unfold distance_levenshtein. rewrite !lev_counts_ok by assumption. cbn [bind]. do 2 eexists. split; [reflexivity|]. split; [reflexivity|].
    pose proof (ed_tr_le same _ (rev A) (rev B) (le_n _)) as L.
    apply Qmult_le_compat_r; [unfold Qle; cbn; lia|].
    apply Qlt_le_weak, Qinv_lt_0_compat. unfold Qlt; cbn. pose proof (longer_pos A B N). unfold longer in *. lia.
Qed.

Lemma edit_range tr ty A B : fits A B ->
  exists d, sr_distance same (edit_type tr) (ty, A) (ty, B) = Ok d /\ (0 <= d <= 1)%Q.
Proof.
  intros F1.
  assert (N : (A = [] /\ B = []) \/ (A <> [] \/ B <> [])).
  { destruct A; [destruct B; [left; auto|right; right; discriminate]|right; left; discriminate]. }
  destruct N as [[-> ->]|N].
  - exists 0%Q. split; [apply edit_empty|]. split; unfold Qle; cbn; lia.
  - destruct (edit_value_any tr ty A B F1 N) as (k & K & E). eexists; split; [exact E|].
    pose proof (longer_pos A B N) as P. split.
    + rewrite <- (quotient_0 (longer A B)). apply quotient_le; lia.
    + rewrite <- (quotient_1 (longer A B)) by assumption. apply quotient_le; lia.
Qed.
Lemma edit_zero tr ty A B d : fits A B -> (tr = true -> partial_equivalence S) ->
  sr_distance same (edit_type tr) (ty, A) (ty, B) = Ok d -> ((d == 0)%Q <-> Forall2 S A B).
Proof.
  intros F1 P E.
  assert (N : (A = [] /\ B = []) \/ (A <> [] \/ B <> [])).
  { destruct A; [destruct B; [left; auto|right; right; discriminate]|right; left; discriminate]. }
  destruct N as [[-> ->]|N].
  - rewrite edit_empty in E. injection E as <-. split; [constructor|reflexivity].
  - destruct (edit_value tr ty A B F1 N P) as (k & M & E'). rewrite E' in E. injection E as <-.
    rewrite <- (minimal_zero _ _ _ _ _ M). split.
    + intros Z0. apply (quotient_inj k 0 (longer A B)); [now apply longer_pos|]. now rewrite Z0, quotient_0.
    + intros ->. apply quotient_0.
Qed.
Lemma edit_one tr ty A B d : fits A B -> A <> [] \/ B <> [] -> (tr = true -> partial_equivalence S) ->
  disjoint S A B -> sr_distance same (edit_type tr) (ty, A) (ty, B) = Ok d -> (d == 1)%Q.
Proof.
  intros F1 N P D E. destruct (edit_value tr ty A B F1 N P) as (k & M & E'). rewrite E' in E. injection E as <-.
  rewrite (minimal_disjoint _ _ _ _ _ M); [apply quotient_1; now apply longer_pos|].
  intros x y Hx Hy Sxy. apply (D x Hx). exists y. auto.
Qed.
Lemma edit_sym tr ty A B : fits A B -> (forall x y, same x y = same y x) -> (tr = true -> partial_equivalence S) ->
  sr_distance same (edit_type tr) (ty, A) (ty, B) = sr_distance same (edit_type tr) (ty, B) (ty, A).
Proof.
  intros F1 Sy P.
  assert (N : (A = [] /\ B = []) \/ (A <> [] \/ B <> [])).
  { destruct A; [destruct B; [left; auto|right; right; discriminate]|right; left; discriminate]. }
  destruct N as [[-> ->]|N]; [reflexivity|].
  assert (F2 : fits B A) by (unfold fits in *; lia).
  destruct (edit_value tr ty A B F1 N P) as (k & M & E). destruct (edit_value tr ty B A F2 ltac:(tauto) P) as (k' & M' & E').
  rewrite E, E'. apply minimal_sym in M; [|intros x y H; now rewrite Sy].
  rewrite (minimal_unique _ _ _ _ _ _ M M'). unfold longer. now rewrite Nat.max_comm.
Qed.
(** Sensible statement of the rounded value: [k] edits over [n] frames. *)
Lemma edit_rounded (k n : nat) : (k <= n)%nat -> (0 < n)%nat -> Z.of_nat n <= int_max ->
  (0 <= lev_float (Z.of_nat k) (Z.of_nat n) <= 1)%R /\
  (lev_float (Z.of_nat k) (Z.of_nat n) = 0%R <-> k = 0%nat) /\
  lev_float (Z.of_nat n) (Z.of_nat n) = 1%R.
Proof.
  unfold int_max. intros H N L. split; [|split].
  - apply lev_float_range; lia.
  - rewrite lev_float_zero by lia. lia.
  - apply lev_float_one. lia.
Qed.
Lemma jaccard_rounded (i u : nat) : (i <= u)%nat -> (0 < u)%nat -> Z.of_nat u <= int_max ->
  (0 <= jaccard_float (Z.of_nat i) (Z.of_nat u) <= 1)%R.
Proof. unfold int_max. intros. apply jaccard_float_range; lia. Qed.
End D.

(** The comparisons of five frame types are equivalences. *)
Lemma eq_members {F B} (same : F -> F -> bool) (key : F -> B) :
  (forall x y, same x y = true <-> key x = key y) -> equivalence (fun x y => same x y = true).
Proof.
  intros H. split; [|split].
  - intros x. now apply H.
  - intros x y E. apply H. symmetry. now apply H.
  - intros x y z E1 E2. apply H in E1, E2. apply H. congruence.
Qed.
Lemma to_int_mod a b : to_int (a - b) = 0 <-> a mod two32 = b mod two32.
Proof.
  rewrite to_int_zero. unfold two32. split; intros H.
  - replace a with (b + (a - b)) by lia. rewrite Zplus_mod, H, Z.add_0_r. now rewrite Z.mod_mod by lia.
  - rewrite Zminus_mod, H, Z.sub_diag. reflexivity.
Qed.
Lemma python_equiv : equivalence (fun f g => (python_frame_cmp_distance f g =? 0) = true).
Proof.
  apply (eq_members (fun f g => python_frame_cmp_distance f g =? 0) (fun f => (pf_function_name f, pf_file_name f, pf_special_function f, pf_special_file f))).
  intros x y. rewrite Z.eqb_eq. unfold python_frame_cmp_distance. fz. rewrite !pair_equal_spec. intuition.
Qed.
Lemma koops_equiv : equivalence (fun f g => (koops_frame_cmp_distance f g =? 0) = true).
Proof.
  apply (eq_members (fun f g => koops_frame_cmp_distance f g =? 0) kf_function_name).
  intros x y. rewrite Z.eqb_eq. unfold koops_frame_cmp_distance. apply strcmp0_zero.
Qed.
Lemma java_equiv : equivalence (fun f g => (java_frame_cmp_distance f g =? 0) = true).
Proof.
  apply (eq_members (fun f g => java_frame_cmp_distance f g =? 0) vf_name).
  intros x y. rewrite Z.eqb_eq. unfold java_frame_cmp_distance. apply strcmp0_zero.
Qed.
Lemma ruby_equiv : equivalence (fun f g => (ruby_frame_cmp_distance f g =? 0) = true).
Proof.
  apply (eq_members (fun f g => ruby_frame_cmp_distance f g =? 0) (fun f => (rf_function_name f, rf_file_name f, rf_special_function f))).
  intros x y. rewrite Z.eqb_eq. unfold ruby_frame_cmp_distance. fz. rewrite !pair_equal_spec. intuition.
Qed.
Lemma js_equiv : equivalence (fun f g => (js_frame_cmp_distance f g =? 0) = true).
Proof.
  apply (eq_members (fun f g => js_frame_cmp_distance f g =? 0) (fun f => (jf_file_line f mod two32, jf_function_name f, jf_file_name f))).
  intros x y. rewrite Z.eqb_eq. unfold js_frame_cmp_distance. fz. rewrite to_int_mod, !pair_equal_spec. intuition.
Qed.
Lemma dist_types_differ {F} (same : F -> F -> bool) dt ty1 ty2 A B : ty1 <> ty2 -> sr_distance same dt (ty1, A) (ty2, B) = Ok 1%Q.
Proof. intros N. unfold sr_distance. cbn. apply Nat.eqb_neq in N. now rewrite N. Qed.
Lemma minimal_iff {F} (same : F -> F -> Prop) (P Q : Prop) a b k : (P <-> Q) -> minimal_edits same P a b k -> minimal_edits same Q a b k.
Proof.
  intros [PQ QP] [E M]. split; [now apply (edits_swap_mono same P Q)|]. intros k' E'. apply M. now apply (edits_swap_mono same Q P).
Qed.
Lemma plain_value : forall F (same : F -> F -> bool) ty A B, fits A B -> A <> [] \/ B <> [] ->
  exists k, minimal_edits (fun x y => same x y = true) False A B k /\
    sr_distance same LEVENSHTEIN (ty, A) (ty, B) = Ok (quotient k (longer A B)).
Proof.
  intros F same ty A B H N. destruct (edit_value same false ty A B H N ltac:(discriminate)) as (k & M & E).
  exists k. split; [|exact E]. apply (minimal_iff _ (false = true)); [|exact M]. split; [discriminate|tauto].
Qed.
Lemma damerau_value : forall F (same : F -> F -> bool) ty A B,
  partial_equivalence (fun x y => same x y = true) -> fits A B -> A <> [] \/ B <> [] ->
  exists k, minimal_edits (fun x y => same x y = true) True A B k /\
    sr_distance same DAMERAU_LEVENSHTEIN (ty, A) (ty, B) = Ok (quotient k (longer A B)).
Proof.
  intros F same ty A B P H N. destruct (edit_value same true ty A B H N ltac:(auto)) as (k & M & E).
  exists k. split; [|exact E]. apply (minimal_iff _ (true = true)); [|exact M]. tauto.
Qed.
