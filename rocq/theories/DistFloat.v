(** * Rounding of the scaled distances to IEEE single precision (Flocq). *)
From Coq Require Import Reals Lra.
From Flocq Require Import Core.
From Verif Require Import Base.
Open Scope R_scope.

(** Rounding to binary32 / binary64, round to nearest, ties to even; overflow cannot occur for the
    values at hand (at most 2^31 in magnitude). *)
Definition single (x : R) : R := round radix2 (FLT_exp (-149) 24) ZnearestE x.
Definition double (x : R) : R := round radix2 (FLT_exp (-1074) 53) ZnearestE x.

(* lib/distance.c:268: (float)result / max_frame_count; both operands are converted to float *)
Definition lev_float (result max_frame_count : Z) : R := single (single (IZR result) / single (IZR max_frame_count)).
(* lib/distance.c:174-178: 1.0 - intersection_size / (float)union_size, the subtraction in double *)
Definition jaccard_float (inter union : Z) : R :=
  let d := single (double (1 - single (single (IZR inter) / single (IZR union)))) in
  if Rlt_dec d 0 then 0 else d.

Lemma single_le x y : x <= y -> single x <= single y.
Proof. apply round_le; [apply FLT_exp_valid; reflexivity | apply valid_rnd_N]. Qed.
Lemma double_le x y : x <= y -> double x <= double y.
Proof. apply round_le; [apply FLT_exp_valid; reflexivity | apply valid_rnd_N]. Qed.
Lemma single_bpow e : (-149 <= e)%Z -> single (bpow radix2 e) = bpow radix2 e.
Proof.
  intros H. apply round_generic; [apply valid_rnd_N|]. apply generic_format_FLT_bpow; [reflexivity | lia].
Qed.
Lemma double_bpow e : (-1074 <= e)%Z -> double (bpow radix2 e) = bpow radix2 e.
Proof.
  intros H. apply round_generic; [apply valid_rnd_N|]. apply generic_format_FLT_bpow; [reflexivity | lia].
Qed.
Lemma single_0 : single 0 = 0.
Proof. apply round_0. apply valid_rnd_N. Qed.
Lemma double_0 : double 0 = 0.
Proof. apply round_0. apply valid_rnd_N. Qed.
Lemma single_1 : single 1 = 1.
Proof. change 1 with (bpow radix2 0). apply single_bpow. lia. Qed.
Lemma double_1 : double 1 = 1.
Proof. change 1 with (bpow radix2 0). apply double_bpow. lia. Qed.
Lemma single_int z : (1 <= z <= 2147483648)%Z -> 1 <= single (IZR z) <= 2147483648.
Proof.
  intros H. split.
  - rewrite <- single_1. apply single_le. apply IZR_le. lia.
  - replace 2147483648 with (single 2147483648); [apply single_le; apply IZR_le; lia|].
    replace 2147483648 with (bpow radix2 31) by (simpl; lra). apply single_bpow. lia.
Qed.
Lemma quot_range r k : (0 <= r <= k)%Z -> (1 <= k <= 2147483648)%Z -> 0 <= single (IZR r) / single (IZR k) <= 1.
Proof.
  intros Hr Hk. pose proof (single_int k Hk) as K.
  assert (0 <= single (IZR r)) by (rewrite <- single_0; apply single_le; apply IZR_le; lia).
  assert (single (IZR r) <= single (IZR k)) by (apply single_le; apply IZR_le; lia).
  split; [apply Rmult_le_pos; [assumption | left; apply Rinv_0_lt_compat; lra]|].
  apply (Rmult_le_reg_r (single (IZR k))); [lra|]. unfold Rdiv. rewrite Rmult_assoc, Rinv_l by lra. lra.
Qed.
Lemma lev_float_range r k : (0 <= r <= k)%Z -> (1 <= k <= 2147483648)%Z -> 0 <= lev_float r k <= 1.
Proof.
  intros Hr Hk. destruct (quot_range r k Hr Hk) as [A B]. apply single_le in A, B. rewrite single_0 in A. rewrite single_1 in B.
  unfold lev_float. lra.
Qed.
Lemma lev_float_zero r k : (0 <= r <= k)%Z -> (1 <= k <= 2147483648)%Z -> (lev_float r k = 0 <-> r = 0%Z).
Proof.
  intros Hr Hk. split.
  - intros H. destruct (Z.eq_dec r 0) as [E|E]; [exact E|]. exfalso.
    pose proof (single_int k Hk) as K. pose proof (single_int r ltac:(lia)) as R1.
    assert (B : bpow radix2 (-31) <= single (IZR r) / single (IZR k)).
    { apply (Rmult_le_reg_r (single (IZR k))); [lra|]. unfold Rdiv. rewrite Rmult_assoc, Rinv_l by lra.
      replace (bpow radix2 (-31)) with (/ 2147483648) by (simpl; lra). apply Rle_trans with (/ 2147483648 * 2147483648).
      - apply Rmult_le_compat_l; lra.
      - lra. }
    apply single_le in B. rewrite single_bpow in B by lia. unfold lev_float in H. rewrite H in B. pose proof (bpow_gt_0 radix2 (-31)). lra.
  - intros ->. unfold lev_float. rewrite single_0. unfold Rdiv. rewrite Rmult_0_l. apply single_0.
Qed.
Lemma lev_float_one k : (1 <= k <= 2147483648)%Z -> lev_float k k = 1.
Proof. intros Hk. pose proof (single_int k Hk). unfold lev_float. replace (_ / _) with 1 by (field; lra). apply single_1. Qed.
Lemma lev_float_mono r r' k : (r <= r')%Z -> (1 <= k <= 2147483648)%Z -> lev_float r k <= lev_float r' k.
Proof.
  intros Hr Hk. pose proof (single_int k Hk). apply single_le. apply Rmult_le_compat_r; [left; apply Rinv_0_lt_compat; lra|].
  apply single_le. apply IZR_le. exact Hr.
Qed.
Lemma jaccard_float_range i u : (0 <= i <= u)%Z -> (1 <= u <= 2147483648)%Z -> 0 <= jaccard_float i u <= 1.
Proof.
  intros Hi Hu. pose proof (quot_range i u Hi Hu) as Q. unfold jaccard_float. set (q := single (single (IZR i) / single (IZR u))).
  assert (Hq : 0 <= q <= 1).
  { unfold q. pose proof (single_le _ _ (proj1 Q)) as A. pose proof (single_le _ _ (proj2 Q)) as B. rewrite single_0 in A. rewrite single_1 in B. lra. }
  assert (D : 0 <= double (1 - q) <= 1).
  { assert (A : 0 <= 1 - q) by lra. assert (B : 1 - q <= 1) by lra. apply double_le in A, B. rewrite double_0 in A. rewrite double_1 in B. lra. }
  assert (E : 0 <= single (double (1 - q)) <= 1).
  { destruct D as [A B]. apply single_le in A, B. rewrite single_0 in A. rewrite single_1 in B. lra. }
  destruct (Rlt_dec _ 0); lra.
Qed.
