(** * Rounding of the complex quality to IEEE single precision (Flocq). *)
From Coq Require Import Reals Lra.
From Flocq Require Import Core.
From Verif Require Import Base DistFloat.
Open Scope R_scope.

(** The constants 0.35f and 0.4f: the single precision numbers nearest to 0.35 and 0.4. *)
Definition c35 : R := 11744051 * bpow radix2 (-25).
Definition c40 : R := 13421773 * bpow radix2 (-25).
(* lib/gdb_stacktrace.c:383: 0.25f * q1 + 0.35f * q2 + 0.4f * q3 in single precision, each operation rounded *)
Definition complex_float (q1 q2 q3 : R) : R :=
  single (single (single (/ 4 * q1) + single (c35 * q2)) + single (c40 * q3)).
(* lib/gdb_thread.c:193: ok_count / (float)all_count *)
Definition quality_float (ok all : Z) : R := single (single (IZR ok) / single (IZR all)).

Lemma b25 : bpow radix2 (-25) = / 33554432.
Proof. simpl. lra. Qed.
Lemma single_fmt m e : (Z.abs m < 16777216)%Z -> (-149 <= e)%Z -> generic_format radix2 (FLT_exp (-149) 24) (IZR m * bpow radix2 e).
Proof.
  intros H E. apply generic_format_FLT. exists (Float radix2 m e); [reflexivity|exact H|exact E].
Qed.
Lemma single_id m e : (Z.abs m < 16777216)%Z -> (-149 <= e)%Z -> single (IZR m * bpow radix2 e) = IZR m * bpow radix2 e.
Proof. intros H E. apply round_generic; [apply valid_rnd_N|]. now apply single_fmt. Qed.
Lemma c35_near : Rabs (c35 - 35 / 100) <= / 2 * bpow radix2 (-25).
Proof. unfold c35. rewrite b25. apply Rabs_le. lra. Qed.
Lemma c40_near : Rabs (c40 - 4 / 10) <= / 2 * bpow radix2 (-25).
Proof. unfold c40. rewrite b25. apply Rabs_le. lra. Qed.
Lemma top_rounds : single (33554433 * bpow radix2 (-25)) <= 1.
Proof.
  assert (V : Valid_exp (FLT_exp (-149) 24)) by (apply FLT_exp_valid; reflexivity).
  apply round_N_le_midp.
  - apply V.
  - change 1 with (bpow radix2 0). apply generic_format_FLT_bpow; [reflexivity|lia].
  - assert (S : succ radix2 (FLT_exp (-149) 24) 1 = 1 + bpow radix2 (-23)).
    { unfold succ. rewrite Rle_bool_true by lra. f_equal. change 1 with (bpow radix2 0) at 1. rewrite ulp_bpow. reflexivity. }
    rewrite S, b25. simpl. lra.
Qed.
Lemma complex_float_range q1 q2 q3 : 0 <= q1 <= 1 -> 0 <= q2 <= 1 -> 0 <= q3 <= 1 -> 0 <= complex_float q1 q2 q3 <= 1.
Proof.
  intros H1 H2 H3. unfold complex_float.
  assert (P35 : 0 <= c35) by (unfold c35; rewrite b25; lra). assert (P40 : 0 <= c40) by (unfold c40; rewrite b25; lra).
  assert (C35 : c35 = 11744051 * / 33554432) by (unfold c35; now rewrite b25).
  assert (C40 : c40 = 13421773 * / 33554432) by (unfold c40; now rewrite b25).
  assert (A1 : 0 <= single (/ 4 * q1) <= / 4).
  { split; [rewrite <- single_0; apply single_le; lra|].
    replace (/ 4) with (single (/ 4)) at 2; [apply single_le; lra|]. replace (/ 4) with (bpow radix2 (-2)) by (simpl; lra). apply single_bpow. lia. }
  assert (A2 : 0 <= single (c35 * q2) <= c35).
  { split; [rewrite <- single_0; apply single_le; apply Rmult_le_pos; lra|].
    replace c35 with (single c35) at 2; [apply single_le|apply (single_id 11744051 (-25)); lia].
    rewrite <- (Rmult_1_r c35) at 2. apply Rmult_le_compat_l; lra. }
  assert (A3 : 0 <= single (c40 * q3) <= c40).
  { split; [rewrite <- single_0; apply single_le; apply Rmult_le_pos; lra|].
    replace c40 with (single c40) at 2; [apply single_le|apply (single_id 13421773 (-25)); lia].
    rewrite <- (Rmult_1_r c40) at 2. apply Rmult_le_compat_l; lra. }
  assert (A4 : 0 <= single (single (/ 4 * q1) + single (c35 * q2)) <= 10066330 * bpow radix2 (-24)).
  { split; [rewrite <- single_0; apply single_le; lra|].
    rewrite <- (single_id 10066330 (-24)) by lia. apply single_le. replace (bpow radix2 (-24)) with (/ 16777216) by (simpl; lra). lra. }
  split; [rewrite <- single_0; apply single_le; lra|].
  eapply Rle_trans; [|apply top_rounds]. apply single_le. rewrite b25.
  replace (bpow radix2 (-24)) with (/ 16777216) in A4 by (simpl; lra). lra.
Qed.
Lemma quality_float_range ok all : (0 <= ok <= all)%Z -> (1 <= all <= 2147483648)%Z -> 0 <= quality_float ok all <= 1.
Proof. exact (lev_float_range ok all). Qed.
Lemma quality_float_all all : (1 <= all <= 2147483648)%Z -> quality_float all all = 1.
Proof. exact (lev_float_one all). Qed.
