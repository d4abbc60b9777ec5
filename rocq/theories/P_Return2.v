(** Round trips of the computed curves 7, 8 and 108 (C100). *)
From Coq Require Import ZArith Reals Lia Lra Psatz.
From Flocq Require Import Core IEEE754.BinarySingleNaN.
From Verif Require Import M_Base M_F64 M_Curve M_CurveF64 S_F64 S_Curve S_Accuracy S_Return
  P_S15 P_F64 P_Curve3 P_CurveErr P_Ideal P_CurveErr2 P_CurveErr3 P_CurveErr4 P_Acc P_Acc2 P_Acc3 P_Acc4 P_Acc5 P_Acc6 P_Return.
Open Scope R_scope.

Lemma relative_rel t V D : 0 < V -> 0 < D -> Rabs (ln D - ln V) <= t -> Rabs (D - V) <= relative t * V.
Proof. intros. now apply rel_of_ln. Qed.

(** Two errors in a row. *)
Lemma then_near z v x t w : 0 < v -> 0 < x -> 0 <= t -> near z v (relative t * v) -> Rabs (ln v - ln x) <= w ->
  near z x (relative t * (x * exp w) + relative w * x).
Proof.
  intros V X T (F & E) L. split; [exact F|].
  replace (B2R z - x) with ((B2R z - v) + (v - x)) by ring. eapply Rle_trans; [apply Rabs_triang|]. apply Rplus_le_compat.
  - eapply Rle_trans; [exact E|]. apply Rmult_le_compat_l; [now apply relative_pos|].
    rewrite <- (exp_ln v) by exact V. rewrite <- (exp_ln x) at 1 by exact X. rewrite <- exp_plus. apply exp_le. apply Rabs_le_inv in L. lra.
  - now apply relative_rel.
Qed.

Lemma log10_pow b w : log_10 (Rpower b w) = w * log_10 b.
Proof. unfold log_10, Rpower. rewrite ln_exp. unfold Rdiv. ring. Qed.

Section Exponential.
Context (pow : f64 -> f64 -> f64) (lg ex : f64 -> f64) (k kl : R) (AP : accurate_pow k pow) (K : 0 <= k <= / 100)
  (AL : accurate_log kl lg) (KL : 0 <= kl <= / 100).
Notation O := (f64_ops pow lg ex).
Context (a b c d e x : f64) (A : finite a) (TA : B2R (f64_cst Ltol) <= B2R a) (B : positive b) (B1 : B2R b <> 1)
  (C : finite c) (TC : B2R (f64_cst Ltol) <= Rabs (B2R c)) (D : finite d) (D8 : Rabs (B2R d) <= bpow radix2 800) (E : finite e) (X : finite x).
Let W := B2R c * B2R x + B2R d.
Let V := Rpower (B2R b) W.
Context (Q9 : Rabs (B2R c * B2R x) + Rabs (B2R d) <= bpow radix2 900) (LV : Rabs (W * ln (B2R b)) <= 590)
  (QS : Rabs (ln (B2R b)) * (3 * u * (Rabs (B2R c * B2R x) + Rabs (B2R d)) + tiny) <= 1)
  (AV9 : Rabs (B2R a * V) + Rabs (B2R e) <= bpow radix2 900) (LAV : Rabs (ln (B2R a * V)) <= 590).
Let r := exp_there k (B2R a) (B2R b) (B2R c) (B2R d) (B2R e) (B2R x).
Context (R4 : r <= / 4).

Lemma type8_returns :
  exists y z, eval_parametric O 8 [a; b; c; d; e] x = Some y /\ eval_parametric O (-8) [a; b; c; d; e] y = Some z /\
    near z (B2R x) (exp_return kl (B2R b) (B2R c) (B2R d) (B2R x) r).
Proof.
  pose proof u_pos as U. pose proof tol64_small as TS.
  assert (A0 : 0 < B2R a) by lra. assert (V0 : 0 < V) by apply exp_pos. assert (AV0 : 0 < B2R a * V) by now apply Rmult_lt_0_compat.
  assert (B0 : 0 < B2R b) by apply B.
  assert (LB : ln (B2R b) <> 0). { intros H. apply B1. rewrite <- (exp_ln (B2R b)), H by exact B0. apply exp_0. }
  destruct (type8_near pow lg ex k AP K a b c d e x A B C D E X Q9) as (y & EY & FY & NY); try assumption.
  { fold W. lra. }
  fold W V in NY.
  assert (H : Rabs (B2R y - B2R e - B2R a * V) <= r * (B2R a * V)).
  { replace (B2R y - B2R e - B2R a * V) with (B2R y - (B2R a * V + B2R e)) by ring. eapply Rle_trans; [exact NY|]. right.
    unfold r, exp_there. fold W V. rewrite (Rabs_pos_eq (B2R a * V)) by lra. field. split; lra. }
  destruct (off_by _ _ _ AV0 H R4) as (D0 & L). set (Dv := B2R y - B2R e) in *.
  assert (R0 : 0 <= r).
  { pose proof (Rabs_pos (Dv - B2R a * V)) as P. destruct (Rle_lt_dec 0 r) as [?|N]; [assumption|]. exfalso. assert (r * (B2R a * V) < 0) by nra. lra. }
  set (M := Dv / B2R a). assert (M0 : 0 < M) by (unfold M, Rdiv; apply Rmult_lt_0_compat; [exact D0|now apply Rinv_0_lt_compat]).
  assert (LM : Rabs (ln M - ln V) <= 2 * r).
  { replace (ln M - ln V) with (ln Dv - ln (B2R a * V)); [exact L|]. unfold M, Rdiv.
    rewrite !ln_mult, ln_Rinv by (try assumption; now apply Rinv_0_lt_compat). ring. }
  assert (EV : ln V = W * ln (B2R b)) by (unfold V, Rpower; now rewrite ln_exp).
  assert (L1 : Rabs (ln Dv) <= 600).
  { replace (ln Dv) with ((ln Dv - ln (B2R a * V)) + ln (B2R a * V)) by ring. eapply Rle_trans; [apply Rabs_triang|]. lra. }
  assert (L2 : Rabs (ln M) <= 600).
  { replace (ln M) with ((ln M - ln V) + ln V) by ring. eapply Rle_trans; [apply Rabs_triang|]. assert (Rabs (ln V) <= 590) by now rewrite EV. lra. }
  destruct (type_m8_near pow lg ex kl AL KL a b c d e y A TA B B1 C TC D D8 E FY D0 L1 L2) as (z & EZ & FZ & NZ).
  exists y, z. split; [exact EY|]. split; [exact EZ|]. split; [exact FZ|].
  fold Dv in NZ. fold M in NZ. set (q := log_10 M / log_10 (B2R b)) in *.
  pose proof ln10_low as L10.
  assert (Eq : q = ln M / ln (B2R b)) by (unfold q, log_10; field; split; lra).
  assert (IB : 0 < / Rabs (ln (B2R b))) by (apply Rinv_0_lt_compat; now apply Rabs_pos_lt).
  assert (NC : B2R c <> 0) by (intros Ec; rewrite Ec, Rabs_R0 in TC; lra).
  assert (IC : 0 < / Rabs (B2R c)) by (apply Rinv_0_lt_compat; now apply Rabs_pos_lt).
  assert (QW : Rabs (q - W) <= 2 * r / Rabs (ln (B2R b))).
  { rewrite Eq. replace (ln M / ln (B2R b) - W) with ((ln M - ln V) * / ln (B2R b)) by (rewrite EV; field; exact LB).
    rewrite Rabs_mult, Rabs_inv. unfold Rdiv. apply Rmult_le_compat_r; lra. }
  assert (LMm : Rabs (log_10 M) <= Rabs (W * log_10 (B2R b)) + r).
  { rewrite <- log10_pow. fold V. replace (log_10 M) with ((log_10 M - log_10 V) + log_10 V) by ring.
    eapply Rle_trans; [apply Rabs_triang|]. pose proof (log10_close M V r LM). lra. }
  assert (Qm : Rabs q <= Rabs W + 2 * r / Rabs (ln (B2R b))).
  { replace q with ((q - W) + W) by ring. eapply Rle_trans; [apply Rabs_triang|]. lra. }
  assert (EX : (q - B2R d) / B2R c - B2R x = (q - W) * / B2R c) by (unfold W; field; exact NC).
  replace (B2R z - B2R x) with ((B2R z - (q - B2R d) / B2R c) + ((q - B2R d) / B2R c - B2R x)) by ring.
  eapply Rle_trans; [apply Rabs_triang|]. unfold exp_return. fold W. apply Rplus_le_compat.
  - eapply Rle_trans; [exact NZ|]. apply Rplus_le_compat_r. unfold Rdiv at 1 3. apply Rmult_le_compat_r; [lra|].
    assert (IL : 0 < / Rabs (log_10 (B2R b))).
    { apply Rinv_0_lt_compat, Rabs_pos_lt. unfold log_10, Rdiv. apply Rmult_integral_contrapositive. split; [exact LB|]. apply Rinv_neq_0_compat. lra. }
    assert (2 * (2 * kl * Rabs (log_10 M) + 8 * u) / Rabs (log_10 (B2R b)) <= 2 * (2 * kl * (Rabs (W * log_10 (B2R b)) + r) + 8 * u) / Rabs (log_10 (B2R b))).
    { unfold Rdiv. apply Rmult_le_compat_r; [lra|]. assert (2 * kl * Rabs (log_10 M) <= 2 * kl * (Rabs (W * log_10 (B2R b)) + r)) by (apply Rmult_le_compat_l; lra). lra. }
    assert (u * Rabs q <= u * (Rabs W + 2 * r / Rabs (ln (B2R b)))) by (apply Rmult_le_compat_l; lra). lra.
  - rewrite EX, Rabs_mult, Rabs_inv. replace (2 * r / (Rabs (ln (B2R b)) * Rabs (B2R c))) with (2 * r / Rabs (ln (B2R b)) * / Rabs (B2R c)) by (field; split; now apply Rabs_no_R0).
    apply Rmult_le_compat_r; lra.
Qed.
End Exponential.

Lemma ln_pow x g : ln (Rpower x g) = g * ln x. Proof. unfold Rpower. apply ln_exp. Qed.

Section Logarithmic.
Context (pow : f64 -> f64 -> f64) (lg ex : f64 -> f64) (k kl : R) (AP : accurate_pow k pow) (K : 0 <= k <= / 100)
  (AL : accurate_log kl lg) (KL : 0 <= kl <= / 100).
Notation O := (f64_ops pow lg ex).
Context (g a b c d x : f64) (G : finite g) (TG : B2R (f64_cst Ltol) <= B2R g <= 10000) (A : finite a) (TA : B2R (f64_cst Ltol) <= B2R a)
  (A8 : B2R a <= bpow radix2 800) (B : finite b) (TB : B2R (f64_cst Ltol) <= B2R b)
  (C : finite c) (D : finite d) (D8 : Rabs (B2R d) <= bpow radix2 800) (X : positive x).
Let W := Rpower (B2R x) (B2R g).
Let V := B2R b * W + B2R c.
Let E := log_there k kl (B2R a) (B2R b) (B2R c) (B2R d) W.
Let r := log_seen (B2R a) (B2R b) (B2R c) W E.
Let q := log_again k (B2R a) (B2R b) (B2R c) W E.
Context (LX : Rabs (ln (B2R x)) <= 590) (GX : B2R g * Rabs (ln (B2R x)) <= 590) (LW : Rabs (ln (B2R b * W)) <= 590)
  (V0 : 0 < V) (LV : Rabs (log_10 V) + E / B2R a <= 100)
  (PS : (2 * relative k + 4 * u) * strain (B2R b * W) (B2R c) <= / 4)
  (R4 : r <= / 4) (RG : 2 * r <= B2R g) (Q4 : q <= / 4) (QG : 2 * q + 4 * u <= B2R g).

Lemma type7_returns :
  exists y z, eval_parametric O 7 [g; a; b; c; d] x = Some y /\ eval_parametric O (-7) [g; a; b; c; d] y = Some z /\
    near z (B2R x) (log_return k (B2R g) (B2R x) r q).
Proof.
  pose proof u_pos as U. pose proof tol64_small as TS. pose proof ln10_low as L10. pose proof ln10_up as U10.
  assert (A0 : 0 < B2R a) by lra. assert (B0 : 0 < B2R b) by lra. assert (G0 : 0 < B2R g) by lra.
  assert (X0 : 0 < B2R x) by apply X. assert (W0 : 0 < W) by apply exp_pos.
  assert (BW : 0 < B2R b * W) by now apply Rmult_lt_0_compat.
  assert (Aa : Rabs (B2R a) = B2R a) by (apply Rabs_pos_eq; lra).
  assert (IG : 0 < / B2R g) by now apply Rinv_0_lt_compat.
  assert (IA : 0 < / B2R a) by now apply Rinv_0_lt_compat.
  assert (ELV : ln V = log_10 V * ln 10) by (unfold log_10; field; lra).
  assert (GA : Rabs (B2R g * ln (B2R x)) = B2R g * Rabs (ln (B2R x))) by (rewrite Rabs_mult; f_equal; apply Rabs_pos_eq; lra).
  (* there *)
  assert (m0' : 0 <= E / B2R a).
  { unfold Rdiv. apply Rmult_le_pos; [|lra]. unfold E, log_there. fold V. pose proof (Rabs_pos (log_10 V)). pose proof (relative_pos k (proj1 K)).
    assert (S1 : 1 <= strain (B2R b * W) (B2R c)) by (apply strain_ge_1; fold V; lra).
    assert (0 <= (2 * relative k + 4 * u) * strain (B2R b * W) (B2R c)) by (apply Rmult_le_pos; lra).
    assert (0 <= kl * Rabs (log_10 V)) by (apply Rmult_le_pos; lra).
    assert (0 <= u * Rabs (log_10 V)) by (apply Rmult_le_pos; lra).
    assert (0 <= u * Rabs (B2R a * log_10 V + B2R d)) by (apply Rmult_le_pos; [lra|apply Rabs_pos]).
    assert (0 < tiny) by apply bpow_gt_0.
    assert (0 <= Rabs (B2R a) * (2 * (kl * Rabs (log_10 V) + 2 * ((2 * relative k + 4 * u) * strain (B2R b * W) (B2R c))) + 2 * u * Rabs (log_10 V))) by (apply Rmult_le_pos; [apply Rabs_pos|lra]).
    lra. }
  assert (LV6 : Rabs (ln V) <= 600).
  { rewrite ELV, Rabs_mult, (Rabs_pos_eq (ln 10)) by lra. pose proof (Rabs_pos (log_10 V)). nra. }
  destruct (type7_near pow lg ex k kl AP K AL KL g a b c d x G A B C D X) as (y & EY & FY & NY); fold W; fold V; try assumption.
  { rewrite GA. lra. }
  { now rewrite Aa. }
  fold W in NY. fold V in NY. change (Rabs (B2R y - (B2R a * log_10 V + B2R d)) <= E) in NY.
  set (m := E / B2R a) in *.
  set (qq := (B2R y - B2R d) / B2R a).
  assert (QL : Rabs (qq - log_10 V) <= m).
  { unfold qq, m. replace ((B2R y - B2R d) / B2R a - log_10 V) with ((B2R y - (B2R a * log_10 V + B2R d)) * / B2R a) by (field; lra).
    rewrite Rabs_mult, Rabs_inv, Aa. unfold Rdiv. apply Rmult_le_compat_r; lra. }
  assert (Q1 : Rabs qq <= Rabs (log_10 V) + m).
  { replace qq with ((qq - log_10 V) + log_10 V) by ring. eapply Rle_trans; [apply Rabs_triang|]. lra. }
  set (T := Rpower 10 qq). assert (T0 : 0 < T) by apply exp_pos.
  assert (LT : Rabs (ln T - ln V) <= 4 * m).
  { unfold T. rewrite ln_pow, ELV, <- Rmult_minus_distr_r, Rabs_mult, (Rabs_pos_eq (ln 10)) by lra.
    pose proof (Rabs_pos (qq - log_10 V)). nra. }
  assert (TV : Rabs (T - B2R c - B2R b * W) <= r * (B2R b * W)).
  { replace (T - B2R c - B2R b * W) with (T - V) by (unfold V; ring). eapply Rle_trans; [apply (relative_rel (4 * m) V T V0 T0 LT)|].
    right. unfold r, log_seen. fold V. rewrite Aa. fold m. field. split; lra. }
  destruct (off_by _ _ _ BW TV R4) as (D0 & LD). set (DD := T - B2R c) in *.
  assert (r0 : 0 <= r).
  { pose proof (Rabs_pos (DD - B2R b * W)). destruct (Rle_lt_dec 0 r) as [?|N]; [assumption|]. exfalso. assert (r * (B2R b * W) < 0) by nra. lra. }
  set (M := DD / B2R b). assert (M0 : 0 < M) by (unfold M, Rdiv; apply Rmult_lt_0_compat; [exact D0|now apply Rinv_0_lt_compat]).
  assert (LM : Rabs (ln M - B2R g * ln (B2R x)) <= 2 * r).
  { replace (ln M - B2R g * ln (B2R x)) with (ln DD - ln (B2R b * W)); [exact LD|]. unfold M, Rdiv.
    rewrite !ln_mult, ln_Rinv by (try assumption; now apply Rinv_0_lt_compat). unfold W. rewrite ln_pow. ring. }
  assert (LM1 : Rabs (ln M) <= B2R g * Rabs (ln (B2R x)) + 2 * r).
  { replace (ln M) with ((ln M - B2R g * ln (B2R x)) + B2R g * ln (B2R x)) by ring. eapply Rle_trans; [apply Rabs_triang|]. lra. }
  assert (LD1 : Rabs (ln DD) <= 600).
  { replace (ln DD) with ((ln DD - ln (B2R b * W)) + ln (B2R b * W)) by ring. eapply Rle_trans; [apply Rabs_triang|]. lra. }
  (* the strain of the difference *)
  assert (ST : strain T (- B2R c) <= 4 / 3 * ((V * exp (4 * m) + Rabs (B2R c)) / (B2R b * W))).
  { unfold strain. change (T + - B2R c) with DD. rewrite Rabs_Ropp, (Rabs_pos_eq T), (Rabs_pos_eq DD) by lra.
    assert (TU : T <= V * exp (4 * m)).
    { rewrite <- (exp_ln T) by exact T0. rewrite <- (exp_ln V) at 1 by exact V0. rewrite <- exp_plus. apply exp_le. apply Rabs_le_inv in LT. lra. }
    assert (DL : 3 / 4 * (B2R b * W) <= DD). { apply Rabs_le_inv in TV. assert (r * (B2R b * W) <= / 4 * (B2R b * W)) by (apply Rmult_le_compat_r; lra). lra. }
    replace (4 / 3 * ((V * exp (4 * m) + Rabs (B2R c)) / (B2R b * W))) with ((V * exp (4 * m) + Rabs (B2R c)) * / (3 / 4 * (B2R b * W))) by (field; split; lra).
    unfold Rdiv at 1. pose proof (Rabs_pos (B2R c)). apply Rmult_le_compat; try lra.
    - left. now apply Rinv_0_lt_compat.
    - apply Rinv_le_contravar; lra. }
  set (t := k + 4 * (3 * u * Rabs qq + bpow radix2 (-1055))).
  assert (B55 : 0 < bpow radix2 (-1055)) by apply bpow_gt_0.
  assert (t0 : 0 <= t) by (unfold t; pose proof (Rabs_pos qq); nra).
  assert (RR : (2 * relative t + 2 * u) * strain T (- B2R c) <= q).
  { unfold q, log_again. fold V. rewrite Aa. fold m. pose proof (relative_pos t t0).
    assert (relative t <= relative (k + 4 * (3 * u * (Rabs (log_10 V) + m) + bpow radix2 (-1055)))) by (apply relative_mono; unfold t; nra).
    apply Rmult_le_compat; try lra. pose proof (strain_ge_1 T (- B2R c)). change (T + - B2R c) with DD in *. specialize (H1 ltac:(lra)). lra. }
  set (rr := (2 * relative t + 2 * u) * strain T (- B2R c)) in *.
  assert (rr0 : 0 <= rr).
  { unfold rr. pose proof (relative_pos t t0). pose proof (strain_ge_1 T (- B2R c)) as SG. change (T + - B2R c) with DD in *. specialize (SG ltac:(lra)). apply Rmult_le_pos; lra. }
  destruct (type_m7_near pow lg ex k AP K g a b c d y G TG A TA B TB C D FY) as (z & EZ & NZ); fold qq; fold t; fold T; fold DD; fold rr; fold M; try lra.
  { replace (B2R y - B2R d) with (B2R a * qq) by (unfold qq; field; lra). rewrite Rabs_mult, Aa.
    assert (E9 : bpow radix2 900 = bpow radix2 800 * bpow radix2 100) by (now rewrite <- bpow_plus).
    rewrite E9. apply Rmult_le_compat; try lra; [apply Rabs_pos|]. assert (128 <= bpow radix2 100) by (change 128 with (bpow radix2 7); apply bpow_le; lia). lra. }
  { nra. }
  exists y, z. split; [exact EY|]. split; [exact EZ|]. fold qq in NZ. fold t in NZ. fold T in NZ. fold DD in NZ. fold M in NZ. fold rr in NZ.
  unfold log_return. set (t2 := k + (u * Rabs (ln M) + 4 * rr + 8 * u) / B2R g) in *.
  set (t3 := k + (u * (B2R g * Rabs (ln (B2R x)) + 2 * r) + 4 * q + 8 * u) / B2R g).
  assert (T23 : 0 <= t2 <= t3).
  { pose proof (Rabs_pos (ln M)) as PM. assert (0 <= u * Rabs (ln M)) by (apply Rmult_le_pos; lra).
    assert (u * Rabs (ln M) <= u * (B2R g * Rabs (ln (B2R x)) + 2 * r)) by (apply Rmult_le_compat_l; lra).
    unfold t2, t3. split.
    - apply Rplus_le_le_0_compat; [lra|]. unfold Rdiv. apply Rmult_le_pos; lra.
    - apply Rplus_le_compat_l. unfold Rdiv. apply Rmult_le_compat_r; lra. }
  apply (then_near z (Rpower M (/ B2R g))); [apply exp_pos|exact X0|lra| |].
  - apply (near_weaken _ _ _ _ NZ). apply Rmult_le_compat_r; [left; apply exp_pos|]. apply relative_mono. lra.
  - rewrite ln_pow. replace (/ B2R g * ln M - ln (B2R x)) with ((ln M - B2R g * ln (B2R x)) * / B2R g) by (field; lra).
    rewrite Rabs_mult, (Rabs_pos_eq (/ B2R g)) by lra. unfold Rdiv. apply Rmult_le_compat_r; lra.
Qed.
End Logarithmic.

Section Sigmoid.
Context (pow : f64 -> f64 -> f64) (lg ex : f64 -> f64) (k : R) (AP : accurate_pow k pow) (K : 0 <= k <= / 100).
Notation O := (f64_ops pow lg ex).
Context (g x : f64) (G : finite g) (TG : B2R (f64_cst Ltol) <= B2R g <= 10000) (X : finite x).
Let D := 1 - B2R x.
Let V := Rpower D (/ B2R g).
Let N := 1 - V.
Let r := s_there k (B2R g) (B2R x).
Let q := s_seen (B2R g) (B2R x) r.
Let t := k + u * (Rabs (ln D) + 8) / B2R g.
Let p := (2 * relative t + 2 * u) * strain 1 (- V).
Let p' := (2 * relative k + 2 * u) * (8 / (3 * V)).
Context (D0 : 0 < D) (N0 : 0 < N) (LD : Rabs (ln D) + 2 * q * B2R g <= 600) (LDG : Rabs (ln D) <= 590 * B2R g)
  (LN : Rabs (ln N) + 2 * r * B2R g <= 600) (LNG : Rabs (ln N) <= 600 * B2R g)
  (T10 : t <= / 10) (P4 : p <= / 4) (PG : 2 * p <= B2R g) (R4 : r <= / 4) (Q4 : q <= / 4) (P4' : p' <= / 4) (PG' : k + 2 * p' * B2R g <= 1).

Lemma type108_returns :
  exists y z, eval_parametric O 108 [g] x = Some y /\ eval_parametric O (-108) [g] y = Some z /\
    near z (B2R x) (s_return k (B2R g) (B2R x) q).
Proof.
  pose proof u_pos as U. pose proof tol64_small as TS.
  assert (G0 : 0 < B2R g) by lra. assert (IG : 0 < / B2R g) by now apply Rinv_0_lt_compat.
  assert (Ag : Rabs (B2R g) = B2R g) by (apply Rabs_pos_eq; lra).
  assert (V0 : 0 < V) by apply exp_pos.
  assert (RK : 0 <= relative k) by (apply relative_pos; lra).
  assert (t0 : 0 <= t).
  { unfold t. pose proof (Rabs_pos (ln D)). assert (0 <= u * (Rabs (ln D) + 8)) by (apply Rmult_le_pos; lra). unfold Rdiv.
    assert (0 <= u * (Rabs (ln D) + 8) * / B2R g) by (apply Rmult_le_pos; lra). lra. }
  assert (p0 : 0 <= p).
  { pose proof (relative_pos t t0). pose proof (strain_ge_1 1 (- V)) as SG. change (1 + - V) with N in SG. specialize (SG ltac:(lra)). unfold p. apply Rmult_le_pos; lra. }
  assert (r0 : 0 <= r).
  { unfold r, s_there. fold D. fold V. fold N. fold t. fold p. apply relative_pos. pose proof (Rabs_pos (ln N)).
    assert (0 <= u * Rabs (ln N)) by (apply Rmult_le_pos; lra). unfold Rdiv.
    assert (0 <= (u * Rabs (ln N) + 4 * p) * / B2R g) by (apply Rmult_le_pos; lra). lra. }
  assert (rg0 : 0 <= 2 * r * B2R g) by (apply Rmult_le_pos; lra).
  assert (q0 : 0 <= q).
  { unfold q, s_seen. fold D. fold V. fold N. apply Rmult_le_pos; [now apply relative_pos|]. unfold Rdiv. apply Rmult_le_pos; [lra|]. left. now apply Rinv_0_lt_compat. }
  assert (qg0 : 0 <= 2 * q * B2R g) by (apply Rmult_le_pos; lra).
  destruct (type108_near pow lg ex k AP K g x G TG X) as (y & EY & NY); fold D; fold V; fold N; fold t; fold p; try lra.
  fold D in NY. fold V in NY. fold N in NY. fold t in NY. fold p in NY.
  set (Y := Rpower N (/ B2R g)) in *. assert (Y0 : 0 < Y) by apply exp_pos.
  destruct NY as (FY & NY). change (Rabs (B2R y - Y) <= r * Y) in NY.
  destruct (off_by _ _ _ Y0 NY R4) as (y0 & Ly). assert (ELY : ln Y = / B2R g * ln N) by apply ln_pow.
  set (V' := Rpower (B2R y) (B2R g)). assert (V0' : 0 < V') by apply exp_pos.
  assert (LV' : Rabs (ln V' - ln N) <= 2 * r * B2R g).
  { unfold V'. rewrite ln_pow. replace (B2R g * ln (B2R y) - ln N) with (B2R g * (ln (B2R y) - ln Y)) by (rewrite ELY; field; lra).
    rewrite Rabs_mult, Ag. replace (2 * r * B2R g) with (B2R g * (2 * r)) by ring. apply Rmult_le_compat_l; lra. }
  assert (NV : Rabs (1 - V' - V) <= q * V).
  { replace (1 - V' - V) with (- (V' - N)) by (unfold N; ring). rewrite Rabs_Ropp. eapply Rle_trans; [apply (relative_rel _ N V' N0 V0' LV')|].
    right. unfold q, s_seen. fold D. fold V. fold N. field. lra. }
  destruct (off_by _ _ _ V0 NV Q4) as (N0' & LN'). set (N' := 1 - V') in *.
  assert (ELV : ln V = / B2R g * ln D) by apply ln_pow.
  assert (LW : Rabs (B2R g * ln N' - ln D) <= 2 * q * B2R g).
  { replace (B2R g * ln N' - ln D) with (B2R g * (ln N' - ln V)) by (rewrite ELV; field; lra). rewrite Rabs_mult, Ag.
    replace (2 * q * B2R g) with (B2R g * (2 * q)) by ring. apply Rmult_le_compat_l; lra. }
  assert (NL : 3 / 4 * V <= N').
  { apply Rabs_le_inv in NV. assert (q * V <= / 4 * V) by (apply Rmult_le_compat_r; lra). lra. }
  assert (ST : strain 1 (- V') <= 8 / (3 * V)).
  { unfold strain. change (1 + - V') with N'. rewrite Rabs_Ropp, !Rabs_pos_eq by lra.
    replace (8 / (3 * V)) with (2 * / (3 / 4 * V)) by (field; lra). unfold Rdiv. apply Rmult_le_compat; try lra.
    - left. now apply Rinv_0_lt_compat.
    - unfold N' in N0'. lra.
    - apply Rinv_le_contravar; lra. }
  set (r' := (2 * relative k + 2 * u) * strain 1 (- V')).
  assert (RP : 0 <= r' <= p').
  { pose proof (strain_ge_1 1 (- V')) as SG. change (1 + - V') with N' in SG. specialize (SG ltac:(lra)). unfold r', p'. split; [apply Rmult_le_pos; lra|].
    apply Rmult_le_compat_l; lra. }
  assert (RPG : 0 <= r' * B2R g <= p' * B2R g) by (split; [apply Rmult_le_pos; lra|apply Rmult_le_compat_r; lra]).
  set (W := Rpower N' (B2R g)). assert (W0 : 0 < W) by apply exp_pos.
  assert (LV : Rabs (ln V) <= 590).
  { rewrite ELV, Rabs_mult, (Rabs_pos_eq (/ B2R g)) by lra. apply (Rmult_le_reg_l (B2R g)); [exact G0|]. rewrite <- Rmult_assoc, Rinv_r by lra. lra. }
  destruct (type_m108_near pow lg ex k AP K g y G) as (z & EZ & NZ); fold V'; fold N'; fold r'; try rewrite Ag; try lra.
  { split; [exact FY|exact y0]. }
  { rewrite <- ln_pow. fold V'. replace (ln V') with ((ln V' - ln N) + ln N) by ring. eapply Rle_trans; [apply Rabs_triang|]. lra. }
  { replace (ln N') with ((ln N' - ln V) + ln V) by ring. eapply Rle_trans; [apply Rabs_triang|]. lra. }
  { replace (B2R g * ln N') with ((B2R g * ln N' - ln D) + ln D) by ring. eapply Rle_trans; [apply Rabs_triang|]. lra. }
  exists y, z. split; [exact EY|]. split; [exact EZ|].
  fold V' in NZ. fold N' in NZ. fold r' in NZ. fold W in NZ. rewrite Ag in NZ. destruct NZ as (FZ & NZ). split; [exact FZ|].
  rewrite <- ln_pow in LW. fold W in LW. pose proof (relative_rel _ D W D0 W0 LW) as WD.
  unfold s_return. fold D. fold V. fold p'.
  assert (WU : W <= D * exp (2 * q * B2R g)).
  { rewrite <- (exp_ln W) by exact W0. rewrite <- (exp_ln D) at 1 by exact D0. rewrite <- exp_plus. apply exp_le. apply Rabs_le_inv in LW. lra. }
  replace (B2R z - B2R x) with ((B2R z - (1 - W)) - (W - D)) by (unfold D; ring).
  eapply Rle_trans; [apply Rabs_triang|]. rewrite Rabs_Ropp. apply Rplus_le_compat; [|exact WD].
  eapply Rle_trans; [exact NZ|].
  assert (relative (k + 2 * r' * B2R g) <= relative (k + 2 * p' * B2R g)) by (apply relative_mono; nra).
  assert (0 <= relative (k + 2 * r' * B2R g)) by (apply relative_pos; nra).
  apply Rmult_le_compat; lra.
Qed.
End Sigmoid.
