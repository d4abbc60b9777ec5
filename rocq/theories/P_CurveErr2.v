(** From errors of logarithms to relative errors; round trips of 16-bit values. *)
From Coq Require Import ZArith Reals Lia Lra Psatz.
From Flocq Require Import Core IEEE754.BinarySingleNaN.
From Verif Require Import M_Base M_F64 M_Curve M_CurveF64 S_F64 P_F64 P_Curve3 P_CurveErr P_Ideal.
Open Scope R_scope.

Lemma exp_abs t : Rabs (exp t - 1) <= exp (Rabs t) - 1.
Proof.
  pose proof (exp_ineq1_le t) as A. pose proof (exp_ineq1_le (- t)) as A'. pose proof (exp_pos t) as P.
  destruct (Rle_dec 0 t) as [H|H].
  - rewrite (Rabs_pos_eq t) by exact H. rewrite Rabs_pos_eq; lra.
  - rewrite (Rabs_left t) by lra. assert (exp t < 1) by (rewrite <- exp_0; apply exp_increasing; lra).
    rewrite Rabs_left by lra. rewrite exp_Ropp. assert (E : exp t * / exp t = 1) by (apply Rinv_r; lra).
    assert (0 < / exp t) by now apply Rinv_0_lt_compat. nra.
Qed.
Lemma rel_of_ln y z B : 0 < y -> 0 < z -> Rabs (ln z - ln y) <= B -> Rabs (z - y) <= (exp B - 1) * y.
Proof.
  intros Y Z H. replace (z - y) with ((exp (ln z - ln y) - 1) * y).
  - rewrite Rabs_mult, (Rabs_pos_eq y) by lra. apply Rmult_le_compat_r; [lra|]. eapply Rle_trans; [apply exp_abs|].
    destruct H as [H|H]; [left; apply exp_increasing in H; lra|right; now rewrite H].
  - unfold Rminus at 2. rewrite exp_plus, exp_Ropp, !exp_ln by assumption. field. lra.
Qed.
Lemma exp_small t : 0 <= t <= / 10 -> exp t - 1 <= 10 / 9 * t.
Proof.
  intros H. pose proof (exp_upper t ltac:(lra)) as U. apply Rle_trans with (/ (1 - t) - 1); [lra|].
  replace (/ (1 - t) - 1) with (t / (1 - t)) by (field; lra). apply Rmult_le_reg_r with (1 - t); [lra|].
  replace (t / (1 - t) * (1 - t)) with t by (field; lra). nra.
Qed.
Lemma ln2_upper : ln 2 <= 7 / 10.
Proof.
  assert (E : 2 <= exp (7 / 10)).
  { replace (7 / 10) with (INR 64 * (7 / 640)) by (cbn [INR]; lra). rewrite exp_pow.
    pose proof (exp_ineq1_le (7 / 640)) as U.
    apply Rle_trans with ((1 + 7 / 640) ^ 64); [lra|apply pow_incr; lra]. }
  rewrite <- (ln_exp (7 / 10)). destruct E as [E|E]; [left; apply ln_increasing; lra|right; now rewrite <- E].
Qed.
Lemma ln_16bit y : / 65536 <= y <= 1 -> Rabs (ln y) <= 112 / 10.
Proof.
  intros (A & B). assert (ln y <= 0) by (rewrite <- ln_1; destruct B as [B| ->]; [left; apply ln_increasing|]; lra).
  rewrite Rabs_left1 by assumption. pose proof ln2_upper.
  assert (L : ln (/ 65536) = - 16 * ln 2).
  { rewrite ln_Rinv by lra. replace 65536 with (bpow radix2 16) by reflexivity. rewrite ln_bpow. lra. }
  assert (ln (/ 65536) <= ln y) by (destruct A as [A| ->]; [left; apply ln_increasing|]; lra). lra.
Qed.
Lemma tol64_small : 0 < B2R (f64_cst Ltol) < / 4.
Proof. rewrite (proj1 cst_tol). lra. Qed.
Section Sixteen.
  Context (pow : f64 -> f64 -> f64) (lg ex : f64 -> f64) (AP : accurate_pow (2 * ulp_half) pow).
  Local Notation O := (f64_ops pow lg ex).
  Lemma sixteen_bound y z B : / 65536 <= y -> 0 < z -> Rabs (ln z - ln y) <= B -> B <= 28 * ulp_half ->
    Rabs (z - y) <= / IZR (2 ^ 48) * y.
  Proof.
    intros Y Z H L. pose proof u_pos as U. assert (0 <= B) by (eapply Rle_trans; [apply Rabs_pos|exact H]).
    eapply Rle_trans; [apply (rel_of_ln y z B); [lra|exact Z|exact H]|]. apply Rmult_le_compat_r; [lra|].
    assert (B <= / 10). { assert (E : ulp_half <= / 1000) by apply U. lra. }
    eapply Rle_trans; [apply exp_small; lra|]. apply Rle_trans with (10 / 9 * (28 * ulp_half)); [lra|].
    unfold ulp_half. assert (E : / IZR (2 ^ 48) = 32 * / IZR (2 ^ 53)) by (cbn; lra). rewrite E.
    assert (0 < / IZR (2 ^ 53)) by (apply Rinv_0_lt_compat, IZR_lt; lia). lra.
  Qed.
  Lemma sixteen_fwd_rev g y : finite g -> / 4 <= B2R g <= 4 -> positive y -> / 65536 <= B2R y <= 1 ->
    exists x z, eval_parametric O (-1) [g] y = Some x /\ eval_parametric O 1 [g] x = Some z /\ finite z /\
      Rabs (B2R z - B2R y) <= / IZR (2 ^ 48) * B2R y.
  Proof.
    intros G T Y L. pose proof (ln_16bit _ L) as N. pose proof u_pos as U. pose proof tol64_small as TR.
    destruct (type1_fwd_rev pow lg ex (2 * ulp_half) AP g y) as (x & z & E1 & E2 & X & Z & B); try assumption; try split; try lra; try nra.
    exists x, z. repeat split; try assumption; [apply Z|]. apply (sixteen_bound _ _ _ (proj1 L) (proj2 Z) B). nra.
  Qed.
  Lemma sixteen_rev_fwd g x : finite g -> / 4 <= B2R g <= 4 -> positive x -> / 65536 <= B2R x <= 1 ->
    exists y z, eval_parametric O 1 [g] x = Some y /\ eval_parametric O (-1) [g] y = Some z /\ finite z /\
      Rabs (B2R z - B2R x) <= / IZR (2 ^ 48) * B2R x.
  Proof.
    intros G T Y L. pose proof (ln_16bit _ L) as N. pose proof u_pos as U. pose proof tol64_small as TR.
    destruct (type1_rev_fwd pow lg ex (2 * ulp_half) AP g x) as (y & z & E1 & E2 & X & Z & B); try assumption; try split; try lra; try nra.
    exists y, z. repeat split; try assumption; [apply Z|]. apply (sixteen_bound _ _ _ (proj1 L) (proj2 Z) B).
    assert (I : / B2R g <= 4). { rewrite <- (Rinv_inv 4). apply Rinv_le_contravar; lra. }
    assert (0 < / B2R g) by (apply Rinv_0_lt_compat; lra). unfold Rdiv. nra.
  Qed.
End Sixteen.
