(** A correctly rounded log10 (C96). *)
From Coq Require Import ZArith Reals Lia Lra Psatz.
From Flocq Require Import Core Relative IEEE754.BinarySingleNaN.
From Verif Require Import M_Base M_F64 M_Curve M_CurveF64 S_F64 S_Curve S_Accuracy P_S15 P_F64 P_Curve3 P_CurveErr P_Ideal P_CurveErr2 P_CurveErr3 P_CurveErr4 P_Acc P_Acc2 P_Acc3.
Open Scope R_scope.

Definition ideal_log (x : f64) : f64 := round64 (log_10 (B2R x)).

Lemma round64_rel z : z = 0 \/ bpow radix2 (-1022) <= Rabs z -> Rabs z <= huge -> near (round64 z) z (u * Rabs z).
Proof.
  intros D H. pose proof u_pos as U. assert (E : Rabs (rne z - z) <= u * Rabs z).
  { destruct D as [-> | D]; [|now apply rne_rel]. rewrite round_0 by apply valid_rnd_round_mode. rewrite Rminus_0_r, Rabs_R0. lra. }
  destruct (op_fin (round64 z) z (round64_ov z) H) as (F & _). split; [exact F|].
  destruct (round64_ov z) as (O & _). rewrite ov_fin in O by exact F. rewrite O, cap_small; [exact E|].
  assert (Rabs (rne z) <= (1 + u) * huge).
  { replace (rne z) with ((rne z - z) + z) by ring. eapply Rle_trans; [apply Rabs_triang|].
    assert (u * Rabs z <= u * huge) by (apply Rmult_le_compat_l; lra). lra. }
  apply Rle_lt_trans with (2 * huge); [pose proof (bpow_gt_0 radix2 1000); nra|].
  change 2 with (bpow radix2 1). rewrite <- bpow_plus. apply bpow_lt. lia.
Qed.
Lemma ln10_up : ln 10 <= 4.
Proof.
  pose proof ln2_upper. assert (E : ln 16 = 4 * ln 2) by (change 16 with (bpow radix2 4); now rewrite ln_bpow).
  assert (ln 10 < ln 16) by (apply ln_increasing; lra). lra.
Qed.
Lemma off_one x : fmt x -> 0 < x -> x = 1 \/ x <= 1 - bpow radix2 (-53) \/ 1 + bpow radix2 (-53) <= x.
Proof.
  intros F X. assert (H53 : 0 < bpow radix2 (-53) <= / 2) by (split; [apply bpow_gt_0|rewrite <- bpow_half; apply bpow_le; lia]).
  assert (one : 1 = IZR (2 ^ 53) * bpow radix2 (-53)) by (change (IZR (2 ^ 53)) with (bpow radix2 53); now rewrite <- bpow_plus).
  destruct (Rlt_le_dec x (/ 2)) as [L|L]; [right; left; lra|].
  destruct (fmt_multiple x (-1) F) as (j & J); [rewrite Rabs_pos_eq, bpow_half; lra|]. change (-1 - 52)%Z with (-53)%Z in J.
  destruct (Z.lt_trichotomy j (2 ^ 53)) as [H|[H|H]].
  - right; left. assert (IZR j <= IZR (2 ^ 53) - 1) by (rewrite <- minus_IZR; apply IZR_le; lia). nra.
  - left. rewrite J, H. now rewrite <- one.
  - right; right. assert (IZR (2 ^ 53) + 1 <= IZR j) by (rewrite <- plus_IZR; apply IZR_le; lia). nra.
Qed.
Lemma ln_le_1 x : 0 < x -> ln x <= x - 1.
Proof.
  intros H. pose proof (exp_ineq1_le (x - 1)) as E. replace (1 + (x - 1)) with x in E by ring.
  rewrite <- (ln_exp (x - 1)). destruct E as [E|E]; [left; now apply ln_increasing|right; now rewrite <- E].
Qed.
Lemma ln_off_one x : fmt x -> 0 < x -> x = 1 \/ bpow radix2 (-54) <= Rabs (ln x).
Proof.
  intros F X. assert (E : bpow radix2 (-53) = 2 * bpow radix2 (-54)) by (change (-53)%Z with (1 + -54)%Z; now rewrite bpow_plus).
  pose proof (bpow_gt_0 radix2 (-54)) as P. assert (S : bpow radix2 (-54) <= / 4) by (change (/ 4) with (bpow radix2 (-2)); apply bpow_le; lia).
  destruct (off_one x F X) as [->|[H|H]]; [now left|right|right].
  - pose proof (ln_le_1 x X). rewrite Rabs_left1; lra.
  - assert (I : ln (/ x) <= / x - 1) by (apply ln_le_1; apply Rinv_0_lt_compat; lra). rewrite ln_Rinv in I by lra.
    assert (/ x <= / (1 + bpow radix2 (-53))) by (apply Rinv_le_contravar; lra).
    assert (/ (1 + bpow radix2 (-53)) <= 1 - bpow radix2 (-54)).
    { apply Rmult_le_reg_r with (1 + bpow radix2 (-53)); [lra|]. rewrite Rinv_l by lra. nra. }
    rewrite Rabs_pos_eq; lra.
Qed.
Lemma ln_f64 (x : f64) : 0 < B2R x -> Rabs (ln (B2R x)) <= 1000.
Proof.
  intros X. pose proof ln2_upper. pose proof ln2_lower.
  assert (L : bpow radix2 (-1074) <= B2R x).
  { apply (generic_format_ge_bpow radix2 (FLT_exp (-1074) 53)); [|exact X|rewrite <- fexp_eq; apply fin_fmt].
    intros e. unfold FLT_exp. lia. }
  assert (U : B2R x <= bpow radix2 1024) by apply Rlt_le, fin_bound.
  assert (A : ln (bpow radix2 (-1074)) <= ln (B2R x)) by (destruct L as [L|L]; [left; apply ln_increasing; [apply bpow_gt_0|exact L]|right; now rewrite L]).
  assert (B : ln (B2R x) <= ln (bpow radix2 1024)) by (destruct U as [U|U]; [left; now apply ln_increasing|right; now rewrite U]).
  rewrite ln_bpow in A, B. apply Rabs_le. lra.
Qed.
Lemma ideal_log_accurate : accurate_log u ideal_log.
Proof.
  intros x (F & X). unfold ideal_log. pose proof ln10_low as L10. pose proof ln10_up as U10.
  assert (I : Rabs (log_10 (B2R x)) = Rabs (ln (B2R x)) * / ln 10).
  { unfold log_10, Rdiv. rewrite Rabs_mult, (Rabs_pos_eq (/ ln 10)) by (left; apply Rinv_0_lt_compat; lra). reflexivity. }
  assert (IL : / 4 <= / ln 10) by (apply Rinv_le_contravar; lra).
  assert (IU : / ln 10 <= / 2) by (apply Rinv_le_contravar; lra).
  apply round64_rel.
  - destruct (ln_off_one (B2R x) (fin_fmt x) X) as [E|E]; [left; rewrite E; unfold log_10; rewrite ln_1; lra|right].
    rewrite I. apply Rle_trans with (bpow radix2 (-54) * bpow radix2 (-2)); [rewrite <- bpow_plus; apply bpow_le; lia|].
    apply Rmult_le_compat; try apply bpow_ge_0; [exact E|]. exact IL.
  - pose proof (ln_f64 x X). rewrite I. apply Rle_trans with (1000 * / 2); [apply Rmult_le_compat; try apply Rabs_pos; lra|].
    apply Rle_trans with (bpow radix2 10); [change (bpow radix2 10) with 1024; lra|apply bpow_le; lia].
Qed.
