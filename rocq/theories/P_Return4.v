(** C100: ordinary parameters of the types 7, 8 and 108. *)
From Coq Require Import ZArith Reals Lia Lra Psatz List.
From Flocq Require Import Core IEEE754.BinarySingleNaN.
From Verif Require Import M_Base M_F64 M_Curve M_CurveF64 S_F64 S_Curve S_Accuracy S_Return P_S15 P_F64 P_Curve3 P_CurveErr P_Ideal P_CurveErr2 P_CurveErr3 P_CurveErr4 P_Acc P_Acc2 P_Acc3 P_Acc4 P_Acc5 P_Acc6 P_Acc7 P_Acc9 P_Acc8 P_Curve P_Curve2 P_Return P_Return2 P_Return3.
Open Scope R_scope.

Lemma u_least : u <= / 1000000000000000.
Proof. unfold ulp_half. change (2 ^ 53)%Z with 9007199254740992%Z. apply Rinv_le_contravar; lra. Qed.
Notation n38 := (/ IZR (2 ^ 38)).
Notation n29 := (/ IZR (2 ^ 29)).
Lemma n38_u : n38 = 32768 * u. Proof. unfold ulp_half. cbn. lra. Qed.
Lemma n29_u : n29 = 16777216 * u. Proof. unfold ulp_half. cbn. lra. Qed.
Lemma inv_range x l h : 0 < l -> l <= x <= h -> / h <= / x <= / l.
Proof. intros. split; apply Rinv_le_contravar; lra. Qed.
Lemma mult_range x y X Y : 0 <= x <= X -> 0 <= y <= Y -> 0 <= x * y <= X * Y.
Proof. intros. split; [apply Rmult_le_pos|apply Rmult_le_compat]; lra. Qed.
Lemma mult_abs x y X Y : Rabs x <= X -> Rabs y <= Y -> Rabs (x * y) <= X * Y.
Proof. intros. rewrite Rabs_mult. apply Rmult_le_compat; try apply Rabs_pos; assumption. Qed.
Lemma ln_le x y : 0 < x -> x <= y -> ln x <= ln y.
Proof. intros X [H | ->]; [left; now apply ln_increasing|lra]. Qed.
Lemma ln_two n : ln (bpow radix2 n) = IZR n * ln 2. Proof. apply ln_bpow. Qed.
Lemma exp_relative t : exp t = 1 + relative t. Proof. unfold relative. ring. Qed.
Lemma log10_range x l : Rabs (ln x) <= l -> Rabs (log_10 x) <= l / 2.
Proof.
  intros L. pose proof ln10_low as T. pose proof (Rabs_pos (ln x)). assert (I : 0 < / ln 10 <= / 2) by (split; [apply Rinv_0_lt_compat|apply Rinv_le_contravar]; lra).
  unfold log_10, Rdiv. rewrite Rabs_mult, (Rabs_pos_eq (/ ln 10)) by lra. apply Rmult_le_compat; lra.
Qed.

Section Eight.
Context (pow : f64 -> f64 -> f64) (lg ex : f64 -> f64) (AP : accurate_pow (2 * u) pow) (AL : accurate_log u lg).
Notation O := (f64_ops pow lg ex).
Context (a b c d e x : f64) (A : finite a) (TA : / 4 <= B2R a <= 4) (B : finite b) (TB : 2 <= B2R b <= 16) (C : finite c) (TC : / 4 <= B2R c <= 4)
  (D : finite d) (TD : Rabs (B2R d) <= 2) (E : finite e) (TE : Rabs (B2R e) <= 1) (X : finite x) (TX : 0 <= B2R x <= 1).
Let W := B2R c * B2R x + B2R d.
Let V := Rpower (B2R b) W.

Lemma ln_b : 685 / 1000 <= ln (B2R b) <= 28 / 10.
Proof.
  pose proof ln2_lower. pose proof ln2_upper. assert (ln 2 <= ln (B2R b)) by (apply ln_le; lra). assert (ln (B2R b) <= ln 16) by (apply ln_le; lra).
  change 16 with (bpow radix2 4) in *. rewrite ln_two in *. lra.
Qed.
Lemma cx : 0 <= B2R c * B2R x <= 4. Proof. replace 4 with (4 * 1) by ring. apply mult_range; lra. Qed.
Lemma W_range : -2 <= W <= 6. Proof. pose proof cx. apply Rabs_le_inv in TD. unfold W. lra. Qed.
Lemma V_low : / 256 <= V.
Proof.
  pose proof W_range. pose proof ln_b. rewrite <- (exp_ln (/ 256)) by lra. unfold V, Rpower. apply exp_le. rewrite ln_Rinv by lra.
  assert (ln (B2R b) <= 4 * ln 2). { replace (4 * ln 2) with (ln 16) by (change 16 with (bpow radix2 4); apply ln_two). apply ln_le; lra. }
  replace (ln 256) with (8 * ln 2) by (change 256 with (bpow radix2 8); symmetry; apply ln_two). nra.
Qed.
Lemma V_ln : ln V = W * ln (B2R b). Proof. apply ln_pow. Qed.
Lemma W_ln : Rabs (W * ln (B2R b)) <= 17.
Proof. pose proof W_range. pose proof ln_b. replace 17 with (6 * (17 / 6)) by lra. apply mult_abs; apply Rabs_le; lra. Qed.
Lemma aV : / 1024 <= B2R a * V.
Proof. pose proof V_low. replace (/ 1024) with (/ 4 * / 256) by lra. apply Rmult_le_compat; lra. Qed.
Let r := exp_there (2 * u) (B2R a) (B2R b) (B2R c) (B2R d) (B2R e) (B2R x).
Lemma strained : 0 <= Rabs (ln (B2R b)) * (3 * u * (Rabs (B2R c * B2R x) + Rabs (B2R d)) + tiny) <= 28 / 10 * (19 * u).
Proof.
  pose proof cx. pose proof ln_b. pose proof u_pos. pose proof tiny_u. pose proof (Rabs_pos (B2R d)). rewrite (Rabs_pos_eq (ln _)), (Rabs_pos_eq (B2R c * B2R x)) by lra.
  apply mult_range; [lra|]. assert (0 <= u * (B2R c * B2R x + Rabs (B2R d)) <= u * 6) by (apply mult_range; lra). lra.
Qed.
Lemma r8 : 0 <= r <= 2200 * u.
Proof.
  pose proof aV as AV. pose proof strained as S. pose proof u_pos as U. pose proof u_least as UT. pose proof tiny_u as TU.
  unfold r, exp_there. fold W. fold V. pose proof (relative_small (2 * u + Rabs (ln (B2R b)) * (3 * u * (Rabs (B2R c * B2R x) + Rabs (B2R d)) + tiny)) ltac:(lra)) as R1.
  set (n := relative (2 * u + Rabs (ln (B2R b)) * (3 * u * (Rabs (B2R c * B2R x) + Rabs (B2R d)) + tiny))) in *.
  assert (I : 0 < / (B2R a * V) <= 1024). { split; [apply Rinv_0_lt_compat; lra|]. rewrite <- (Rinv_inv 1024). apply Rinv_le_contravar; lra. }
  assert (T : 0 <= Rabs (B2R a * V + B2R e) * / (B2R a * V) <= 1025).
  { split; [apply Rmult_le_pos; [apply Rabs_pos|lra]|]. apply Rle_trans with ((B2R a * V + 1) * / (B2R a * V)).
    - apply Rmult_le_compat_r; [lra|]. eapply Rle_trans; [apply Rabs_triang|]. rewrite (Rabs_pos_eq (B2R a * V)); lra.
    - replace ((B2R a * V + 1) * / (B2R a * V)) with (1 + / (B2R a * V)) by (rewrite Rmult_plus_distr_r, Rinv_r by lra; ring). lra. }
  assert (0 <= u * (Rabs (B2R a * V + B2R e) * / (B2R a * V)) <= u * 1025) by (apply mult_range; lra).
  assert (0 <= tiny * / (B2R a * V) <= u * 1024) by (apply mult_range; lra).
  replace ((u * Rabs (B2R a * V + B2R e) + tiny) / (B2R a * V)) with (u * (Rabs (B2R a * V + B2R e) * / (B2R a * V)) + tiny * / (B2R a * V)) by (unfold Rdiv; ring).
  lra.
Qed.
Lemma error8 : exp_return u (B2R b) (B2R c) (B2R d) (B2R x) r <= n38.
Proof.
  pose proof r8 as RR. pose proof ln_b as LB. pose proof u_pos as U. pose proof u_least as UT. destruct small_u as (SM & _). pose proof W_range as WR. pose proof W_ln as WL. rewrite n38_u.
  pose proof ln10_low as L10. pose proof ln10_up as U10.
  assert (LG : 685 / 4000 <= log_10 (B2R b)).
  { unfold log_10, Rdiv. replace (685 * / 4000) with (685 / 1000 * / 4) by lra. apply Rmult_le_compat; try lra. apply Rinv_le_contravar; lra. }
  assert (LGI : 0 < / log_10 (B2R b) <= 584 / 100). { split; [apply Rinv_0_lt_compat; lra|]. replace (584 / 100) with (/ (100 / 584)) by lra. apply Rinv_le_contravar; lra. }
  assert (LBI : 0 < / ln (B2R b) <= 146 / 100). { split; [apply Rinv_0_lt_compat; lra|]. replace (146 / 100) with (/ (100 / 146)) by lra. apply Rinv_le_contravar; lra. }
  assert (CI : 0 < / B2R c <= 4). { split; [apply Rinv_0_lt_compat; lra|]. rewrite <- (Rinv_inv 4). apply Rinv_le_contravar; lra. }
  assert (L : 0 <= Rabs (W * log_10 (B2R b)) <= 17 / 2).
  { split; [apply Rabs_pos|]. rewrite <- log10_pow. apply log10_range. rewrite ln_pow. exact WL. }
  unfold exp_return. fold W. rewrite (Rabs_pos_eq (ln (B2R b))), (Rabs_pos_eq (log_10 (B2R b))), (Rabs_pos_eq (B2R c)) by lra.
  assert (AW : 0 <= Rabs W <= 6) by (split; [apply Rabs_pos|apply Rabs_le; lra]). pose proof (Rabs_pos (B2R d)) as PD.
  assert (Z : 0 <= 2 * r / ln (B2R b) <= 4400 * u * (146 / 100)) by (unfold Rdiv; apply mult_range; lra).
  assert (T1 : 0 <= 2 * (2 * u * (Rabs (W * log_10 (B2R b)) + r) + 8 * u) / log_10 (B2R b) <= 52 * u * (584 / 100)).
  { assert (0 <= u * (Rabs (W * log_10 (B2R b)) + r) <= u * 9) by (apply mult_range; lra). unfold Rdiv. apply mult_range; lra. }
  assert (T2 : 0 <= u * (Rabs W + 2 * r / ln (B2R b)) <= u * (61 / 10)) by (apply mult_range; lra).
  assert (T3 : 0 <= u * (Rabs W + 2 * r / ln (B2R b) + Rabs (B2R d)) <= u * (81 / 10)) by (apply mult_range; lra).
  assert (T4 : 0 <= (3 * (2 * (2 * u * (Rabs (W * log_10 (B2R b)) + r) + 8 * u) / log_10 (B2R b) + u * (Rabs W + 2 * r / ln (B2R b)))
     + 4 * u * (Rabs W + 2 * r / ln (B2R b) + Rabs (B2R d))) / B2R c <= 965 * u * 4) by (unfold Rdiv; apply mult_range; unfold Rdiv in *; lra).
  assert (T5 : 0 <= 2 * r / (ln (B2R b) * B2R c) <= 4400 * u * (146 / 100) * 4).
  { replace (2 * r / (ln (B2R b) * B2R c)) with (2 * r / ln (B2R b) * / B2R c) by (field; split; lra). apply mult_range; lra. }
  lra.
Qed.
Lemma ordinary8 :
  exists y z, eval_parametric O 8 [a; b; c; d; e] x = Some y /\ eval_parametric O (-8) [a; b; c; d; e] y = Some z /\ near z (B2R x) n38.
Proof.
  pose proof r8 as RR. pose proof ln_b as LB. pose proof u_pos as U. pose proof u_least as UT. pose proof cx as CX. pose proof W_ln as WL. pose proof strained as ST.
  pose proof tol64_small as TS. pose proof big_900 as B9. pose proof big_800 as B8. pose proof aV as AV. pose proof V_low as VL.
  assert (VU : V <= bpow radix2 27).
  { rewrite <- (exp_ln (bpow radix2 27)) by apply bpow_gt_0. unfold V, Rpower. apply exp_le. rewrite ln_two. pose proof ln2_lower. apply Rabs_le_inv in WL. lra. }
  assert (AU : B2R a * V <= 4 * bpow radix2 27) by (apply Rmult_le_compat; lra).
  assert (B30 : bpow radix2 27 = 134217728) by (cbn; lra). assert (B31 : bpow radix2 100 <= bpow radix2 900) by (apply bpow_le; lia).
  assert (B32 : bpow radix2 40 <= bpow radix2 100) by (apply bpow_le; lia). assert (B33 : bpow radix2 40 = 1099511627776) by (cbn; lra).
  destruct (type8_returns pow lg ex (2 * u) u AP ltac:(lra) AL ltac:(lra) a b c d e x) as (y & z & E1 & E2 & N); try assumption; try (fold W); try (fold V); try (fold r).
  - lra.
  - split; [exact B|lra].
  - lra.
  - rewrite Rabs_pos_eq; lra.
  - lra.
  - rewrite (Rabs_pos_eq (B2R c * B2R x)) by lra. lra.
  - lra.
  - lra.
  - rewrite (Rabs_pos_eq (B2R a * V)) by lra. lra.
  - rewrite ln_mult, V_ln by lra. eapply Rle_trans; [apply Rabs_triang|].
    assert (Rabs (ln (B2R a)) <= 2 * ln 2).
    { apply Rabs_le. assert (E4 : ln 4 = 2 * ln 2) by (change 4 with (bpow radix2 2); apply ln_two). assert (ln (B2R a) <= ln 4) by (apply ln_le; lra).
      assert (ln (/ 4) <= ln (B2R a)) by (apply ln_le; lra). rewrite ln_Rinv in * by lra. lra. }
    pose proof ln2_upper. lra.
  - lra.
  - exists y, z. split; [exact E1|split; [exact E2|]]. exact (near_weaken _ _ _ _ N error8).
Qed.
End Eight.

Section Seven.
Context (pow : f64 -> f64 -> f64) (lg ex : f64 -> f64) (AP : accurate_pow (2 * u) pow) (AL : accurate_log u lg).
Notation O := (f64_ops pow lg ex).
Context (g a b c d x : f64) (G : finite g) (TG : / 4 <= B2R g <= 4) (A : finite a) (TA : / 4 <= B2R a <= 4) (B : finite b) (TB : / 4 <= B2R b <= 4)
  (C : finite c) (TC : 0 <= B2R c <= 1) (D : finite d) (TD : Rabs (B2R d) <= 1) (X : finite x) (TX : 0 < B2R x <= 1).
Let W := Rpower (B2R x) (B2R g).
Let V := B2R b * W + B2R c.
Context (BW : / 256 <= B2R b * W).
Let E := log_there (2 * u) u (B2R a) (B2R b) (B2R c) (B2R d) W.
Let r := log_seen (B2R a) (B2R b) (B2R c) W E.
Let q := log_again (2 * u) (B2R a) (B2R b) (B2R c) W E.

Lemma W1 : 0 < W <= 1.
Proof.
  split; [apply exp_pos|]. rewrite <- exp_0. unfold W, Rpower. apply exp_le. assert (ln (B2R x) <= 0) by (rewrite <- ln_1; apply ln_le; lra). nra.
Qed.
Lemma bW4 : B2R b * W <= 4. Proof. pose proof W1. replace 4 with (4 * 1) by ring. apply Rmult_le_compat; lra. Qed.
Lemma ln_mid y : / 256 <= y <= 5 -> Rabs (ln y) <= 56 / 10.
Proof.
  intros Y. pose proof ln2_upper. pose proof ln2_lower. assert (E8 : ln 256 = 8 * ln 2) by (change 256 with (bpow radix2 8); apply ln_two).
  assert (ln (/ 256) <= ln y) by (apply ln_le; lra). assert (ln y <= ln 256) by (apply ln_le; lra). rewrite ln_Rinv in * by lra. apply Rabs_le. lra.
Qed.
Lemma gln : B2R g * Rabs (ln (B2R x)) <= 7 /\ Rabs (ln (B2R x)) <= 28.
Proof.
  pose proof W1. pose proof ln2_upper. assert (L : ln (B2R x) <= 0) by (rewrite <- ln_1; apply ln_le; lra).
  assert (WL : / 1024 <= W).
  { apply (Rmult_le_reg_l 4); [lra|]. apply Rle_trans with (B2R b * W); [lra|]. apply Rmult_le_compat_r; lra. }
  assert (ET : ln 1024 = 10 * ln 2) by (change 1024 with (bpow radix2 10); apply ln_two).
  assert (H2 : ln (/ 1024) <= ln W) by (apply ln_le; lra). rewrite ln_Rinv, ET in H2 by lra. unfold W in H2. rewrite ln_pow in H2.
  rewrite Rabs_left1 by exact L. split; [nra|nra].
Qed.
Lemma E7 : 0 <= E <= 200 * u.
Proof.
  pose proof u_pos as U. pose proof u_least as UT. pose proof bW4 as B4. pose proof tiny_u as TU. unfold E, log_there. fold V.
  rewrite strain_same by lra. pose proof (relative_small (2 * u) ltac:(lra)) as R2.
  assert (L : 0 <= Rabs (log_10 V) <= 28 / 10).
  { split; [apply Rabs_pos|]. replace (28 / 10) with (56 / 10 / 2) by lra. apply log10_range, ln_mid. unfold V. lra. }
  rewrite (Rabs_pos_eq (B2R a)) by lra.
  assert (UL : 0 <= u * Rabs (log_10 V) <= u * (28 / 10)) by (apply mult_range; lra).
  assert (T : 0 <= Rabs (B2R a * log_10 V + B2R d) <= 122 / 10).
  { split; [apply Rabs_pos|]. eapply Rle_trans; [apply Rabs_triang|]. assert (Rabs (B2R a * log_10 V) <= 4 * (28 / 10)) by (apply mult_abs; [rewrite Rabs_pos_eq; lra|lra]). lra. }
  assert (0 <= u * Rabs (B2R a * log_10 V + B2R d) <= u * (122 / 10)) by (apply mult_range; lra).
  set (n := relative (2 * u)) in *.
  assert (0 <= B2R a * (2 * (u * Rabs (log_10 V) + 2 * ((2 * n + 4 * u) * 1)) + 2 * u * Rabs (log_10 V)) <= 4 * (46 * u)) by (apply mult_range; lra).
  lra.
Qed.
Lemma m7 : 0 <= E / Rabs (B2R a) <= 800 * u.
Proof.
  pose proof E7. rewrite Rabs_pos_eq by lra. replace (800 * u) with (200 * u * 4) by ring. unfold Rdiv. apply mult_range; [assumption|].
  split; [left; apply Rinv_0_lt_compat; lra|]. rewrite <- (Rinv_inv 4). apply Rinv_le_contravar; lra.
Qed.
Lemma VbW : 1 <= V / (B2R b * W) <= 257 /\ 0 <= Rabs (B2R c) / (B2R b * W) <= 256.
Proof.
  assert (I : 0 < / (B2R b * W) <= 256). { split; [apply Rinv_0_lt_compat; lra|]. rewrite <- (Rinv_inv 256). apply Rinv_le_contravar; lra. }
  assert (0 <= B2R c * / (B2R b * W) <= 1 * 256) by (apply mult_range; lra).
  rewrite (Rabs_pos_eq (B2R c)) by lra. unfold V, Rdiv. rewrite Rmult_plus_distr_r, Rinv_r by lra. lra.
Qed.
Lemma r7 : 0 <= r <= 915000 * u.
Proof.
  pose proof u_pos as U. pose proof u_least as UT. pose proof m7 as M. destruct VbW as (H & _). unfold r, log_seen. fold V.
  pose proof (relative_small (4 * (E / Rabs (B2R a))) ltac:(lra)) as R.
  assert (0 <= relative (4 * (E / Rabs (B2R a))) * (V / (B2R b * W)) <= (3560 * u) * 257) by (apply mult_range; lra). lra.
Qed.
Lemma q7 : 0 <= q <= 63000 * u.
Proof.
  pose proof u_pos as U. pose proof u_least as UT. pose proof m7 as M. destruct VbW as (H & H2). pose proof bW4 as B4. destruct small_u as (_ & SM). unfold q, log_again. fold V.
  set (m := E / Rabs (B2R a)) in *.
  assert (L : 0 <= Rabs (log_10 V) <= 28 / 10).
  { split; [apply Rabs_pos|]. replace (28 / 10) with (56 / 10 / 2) by lra. apply log10_range, ln_mid. unfold V. lra. }
  assert (UL : 0 <= u * (Rabs (log_10 V) + m) <= u * (281 / 100)) by (apply mult_range; lra).
  pose proof (relative_small (2 * u + 4 * (3 * u * (Rabs (log_10 V) + m) + bpow radix2 (-1055))) ltac:(lra)) as R1.
  set (n := relative (2 * u + 4 * (3 * u * (Rabs (log_10 V) + m) + bpow radix2 (-1055)))) in *.
  pose proof (relative_small (4 * m) ltac:(lra)) as R2. rewrite exp_relative.
  replace ((V * (1 + relative (4 * m)) + Rabs (B2R c)) / (B2R b * W)) with (V / (B2R b * W) * (1 + relative (4 * m)) + Rabs (B2R c) / (B2R b * W)) by (unfold Rdiv; ring).
  assert (0 <= V / (B2R b * W) * (1 + relative (4 * m)) <= 257 * (1001 / 1000)) by (apply mult_range; lra).
  assert (0 <= (2 * n + 2 * u) * (4 / 3 * (V / (B2R b * W) * (1 + relative (4 * m)) + Rabs (B2R c) / (B2R b * W))) <= (917 / 10 * u) * (685)) by (apply mult_range; lra).
  lra.
Qed.
Lemma error7 : log_return (2 * u) (B2R g) (B2R x) r q <= n29.
Proof.
  pose proof u_pos as U. pose proof u_least as UT. pose proof r7 as R. pose proof q7 as Q. destruct gln as (GL & _). rewrite n29_u. unfold log_return.
  assert (IG : 0 < / B2R g <= 4). { split; [apply Rinv_0_lt_compat; lra|]. rewrite <- (Rinv_inv 4). apply Rinv_le_contravar; lra. }
  assert (GP : 0 <= B2R g * Rabs (ln (B2R x))) by (apply Rmult_le_pos; [lra|apply Rabs_pos]).
  assert (T1 : 0 <= u * (B2R g * Rabs (ln (B2R x)) + 2 * r) <= u * 8) by (apply mult_range; lra).
  assert (T2 : 0 <= (u * (B2R g * Rabs (ln (B2R x)) + 2 * r) + 4 * q + 8 * u) / B2R g <= (252020 * u) * 4) by (unfold Rdiv; apply mult_range; lra).
  assert (T3 : 0 <= 2 * r / B2R g <= (1830000 * u) * 4) by (unfold Rdiv; apply mult_range; lra).
  pose proof (relative_small (2 * u + (u * (B2R g * Rabs (ln (B2R x)) + 2 * r) + 4 * q + 8 * u) / B2R g) ltac:(lra)) as R1.
  pose proof (relative_small (2 * r / B2R g) ltac:(lra)) as R2. rewrite exp_relative. set (n := relative (2 * r / B2R g)) in *.
  set (l := relative (2 * u + (u * (B2R g * Rabs (ln (B2R x)) + 2 * r) + 4 * q + 8 * u) / B2R g)) in *.
  assert (0 <= B2R x * (1 + n) <= 1 * (1001 / 1000)) by (apply mult_range; lra).
  assert (0 <= l * (B2R x * (1 + n)) <= (1130000 * u) * (1001 / 1000)) by (apply mult_range; lra).
  assert (0 <= n * B2R x <= (8140000 * u) * 1) by (apply mult_range; lra).
  lra.
Qed.
Lemma ordinary7 :
  exists y z, eval_parametric O 7 [g; a; b; c; d] x = Some y /\ eval_parametric O (-7) [g; a; b; c; d] y = Some z /\ near z (B2R x) n29.
Proof.
  pose proof u_pos as U. pose proof u_least as UT. pose proof r7 as R. pose proof q7 as Q. destruct gln as (GL & LX). pose proof m7 as M. pose proof bW4 as B4.
  pose proof tol64_small as TS. pose proof big_900 as B9. pose proof big_800 as B8. pose proof (relative_small (2 * u) ltac:(lra)) as R2.
  assert (L : Rabs (log_10 V) <= 28 / 10). { replace (28 / 10) with (56 / 10 / 2) by lra. apply log10_range, ln_mid. unfold V. lra. }
  destruct (type7_returns pow lg ex (2 * u) u AP ltac:(lra) AL ltac:(lra) g a b c d x) as (y & z & E1 & E2 & N); try assumption;
    try (fold W); try (fold V); try (fold E); try (fold r); try (fold q); try lra.
  - split; [exact X|lra].
  - pose proof (ln_mid (B2R b * W) ltac:(lra)). lra.
  - unfold V. lra.
  - rewrite (Rabs_pos_eq (B2R a)) in M by lra. lra.
  - rewrite strain_same by lra. lra.
  - exists y, z. split; [exact E1|split; [exact E2|]]. exact (near_weaken _ _ _ _ N error7).
Qed.
End Seven.

Section S.
Context (pow : f64 -> f64 -> f64) (lg ex : f64 -> f64) (AP : accurate_pow (2 * u) pow).
Notation O := (f64_ops pow lg ex).
Context (g x : f64) (G : finite g) (TG : / 2 <= B2R g <= 2) (X : finite x) (TX : / 16 <= B2R x <= 15 / 16).
Let D := 1 - B2R x.
Let V := Rpower D (/ B2R g).
Let N := 1 - V.
Let r := s_there (2 * u) (B2R g) (B2R x).
Let q := s_seen (B2R g) (B2R x) r.
Let t := 2 * u + u * (Rabs (ln D) + 8) / B2R g.
Let p := (2 * relative t + 2 * u) * strain 1 (- V).
Let p' := (2 * relative (2 * u) + 2 * u) * (8 / (3 * V)).

Lemma D16 : / 16 <= D <= 15 / 16. Proof. unfold D. lra. Qed.
Lemma ginv : / 2 <= / B2R g <= 2. Proof. pose proof (inv_range (B2R g) (/ 2) 2 ltac:(lra) TG) as H. rewrite Rinv_inv in H. exact H. Qed.
Lemma lnD : Rabs (ln D) <= 28 / 10 /\ ln D <= 0.
Proof.
  pose proof D16. pose proof ln2_upper. assert (E : ln 16 = 4 * ln 2) by (change 16 with (bpow radix2 4); apply ln_two).
  assert (ln (/ 16) <= ln D) by (apply ln_le; lra). assert (ln D <= ln 1) by (apply ln_le; lra). rewrite ln_Rinv, ln_1 in * by lra. split; [apply Rabs_le|]; lra.
Qed.
Lemma V_above : D * D <= V.
Proof.
  pose proof D16. pose proof ginv. destruct lnD as (_ & L). rewrite <- (exp_ln (D * D)) by nra. unfold V, Rpower. apply exp_le. rewrite ln_mult by lra. nra.
Qed.
Lemma V_below : V <= 31 / 32.
Proof.
  pose proof D16. pose proof ginv. destruct lnD as (_ & L). rewrite <- (exp_ln (31 / 32)) by lra. unfold V, Rpower. apply exp_le.
  assert (ln D <= ln (31 / 32 * (31 / 32))) by (apply ln_le; lra). rewrite ln_mult in * by lra. assert (/ B2R g * ln D <= / 2 * ln D) by nra. lra.
Qed.
Lemma V_range : / 256 <= V <= 31 / 32.
Proof. split; [|exact V_below]. apply Rle_trans with (D * D); [|exact V_above]. pose proof D16. nra. Qed.
Lemma lnN : Rabs (ln N) <= 35 / 10.
Proof.
  pose proof V_range. pose proof ln2_upper. assert (E : ln 32 = 5 * ln 2) by (change 32 with (bpow radix2 5); apply ln_two).
  assert (ln (/ 32) <= ln N) by (apply ln_le; unfold N; lra). assert (ln N <= ln 1) by (apply ln_le; unfold N; lra). rewrite ln_Rinv, ln_1 in * by lra. apply Rabs_le. lra.
Qed.
Lemma t108 : 0 <= t <= 236 / 10 * u.
Proof.
  pose proof u_pos. pose proof ginv. destruct lnD as (L & _). pose proof (Rabs_pos (ln D)). unfold t.
  assert (0 <= u * (Rabs (ln D) + 8) <= u * (108 / 10)) by (apply mult_range; lra).
  assert (0 <= u * (Rabs (ln D) + 8) / B2R g <= u * (108 / 10) * 2) by (unfold Rdiv at 1 2; apply mult_range; lra). lra.
Qed.
Lemma p108 : 0 <= p <= 3500 * u.
Proof.
  pose proof u_pos. pose proof u_least. pose proof t108. pose proof V_range as VR. pose proof (relative_small t ltac:(lra)) as R.
  assert (S : 0 <= strain 1 (- V) <= 64).
  { unfold strain. rewrite Rabs_Ropp. change (1 + - V) with N. rewrite !Rabs_pos_eq by (unfold N; lra). unfold Rdiv.
    assert (0 <= (1 + V) * / N <= 2 * 32); [|lra]. apply mult_range; [lra|]. split; [left; apply Rinv_0_lt_compat; unfold N; lra|]. rewrite <- (Rinv_inv 32). apply Rinv_le_contravar; unfold N; lra. }
  unfold p. assert (0 <= (2 * relative t + 2 * u) * strain 1 (- V) <= (545 / 10 * u) * 64) by (apply mult_range; lra). lra.
Qed.
Lemma r108 : 0 <= r <= 31200 * u.
Proof.
  pose proof u_pos. pose proof u_least. pose proof p108 as P. pose proof ginv. pose proof lnN as L. pose proof (Rabs_pos (ln N)). unfold r, s_there. fold D. fold V. fold N. fold t. fold p.
  assert (0 <= u * Rabs (ln N) <= u * (35 / 10)) by (apply mult_range; lra).
  assert (0 <= (u * Rabs (ln N) + 4 * p) / B2R g <= (14004 * u) * 2) by (unfold Rdiv; apply mult_range; lra).
  pose proof (relative_small (2 * u + (u * Rabs (ln N) + 4 * p) / B2R g) ltac:(lra)). lra.
Qed.
Lemma rg108 : 0 <= relative (2 * r * B2R g) <= 139000 * u.
Proof.
  pose proof u_pos. pose proof u_least. pose proof r108 as R. assert (0 <= 2 * r * B2R g <= (62400 * u) * 2) by (apply mult_range; lra).
  pose proof (relative_small (2 * r * B2R g) ltac:(lra)). lra.
Qed.
Lemma q108 : 0 <= q <= 36000000 * u /\ q * D <= 2300000 * u.
Proof.
  pose proof u_pos. pose proof rg108 as R. pose proof V_range. pose proof D16. pose proof V_above as VA. unfold q, s_seen. fold D. fold V. fold N.
  assert (IV : 0 < / V <= 256). { split; [apply Rinv_0_lt_compat; lra|]. rewrite <- (Rinv_inv 256). apply Rinv_le_contravar; lra. }
  assert (0 <= N / V <= 1 * 256) by (unfold Rdiv; apply mult_range; [unfold N|]; lra).
  assert (DV : 0 <= D / V <= 16).
  { split; [unfold Rdiv; apply Rmult_le_pos; lra|]. apply (Rmult_le_reg_r V); [lra|]. unfold Rdiv. rewrite Rmult_assoc, Rinv_l by lra.
    apply Rle_trans with (16 * (D * D)); nra. }
  split.
  - assert (0 <= relative (2 * r * B2R g) * (N / V) <= (139000 * u) * (1 * 256)) by (apply mult_range; lra). lra.
  - replace (relative (2 * r * B2R g) * (N / V) * D) with (relative (2 * r * B2R g) * (N * (D / V))) by (unfold Rdiv; ring).
    assert (0 <= N * (D / V) <= 1 * 16) by (apply mult_range; [unfold N|]; lra).
    assert (0 <= relative (2 * r * B2R g) * (N * (D / V)) <= (139000 * u) * (1 * 16)) by (apply mult_range; lra). lra.
Qed.
Lemma p108' : 0 <= p' <= 4450 * u.
Proof.
  pose proof u_pos. pose proof u_least. pose proof V_range. pose proof (relative_small (2 * u) ltac:(lra)). unfold p'.
  assert (0 <= 8 / (3 * V) <= 683).
  { replace (8 / (3 * V)) with (8 / 3 * / V) by (field; lra). assert (0 <= / V <= 256). { split; [left; apply Rinv_0_lt_compat; lra|]. rewrite <- (Rinv_inv 256). apply Rinv_le_contravar; lra. }
    assert (0 <= 8 / 3 * / V <= 8 / 3 * 256) by (apply mult_range; lra). lra. }
  assert (0 <= (2 * relative (2 * u) + 2 * u) * (8 / (3 * V)) <= (65 / 10 * u) * 683) by (apply mult_range; lra). lra.
Qed.
Lemma error108 : s_return (2 * u) (B2R g) (B2R x) q <= n29.
Proof.
  pose proof u_pos as U. pose proof u_least as UT. destruct q108 as (Q & QD). pose proof p108' as P. pose proof D16 as DR. rewrite n29_u. unfold s_return. fold D. fold V. fold p'.
  assert (0 <= 2 * p' * B2R g <= (8900 * u) * 2) by (apply mult_range; lra).
  pose proof (relative_small (2 * u + 2 * p' * B2R g) ltac:(lra)) as R1. set (n := relative (2 * u + 2 * p' * B2R g)) in *.
  assert (QG : 0 <= 2 * q * B2R g <= (72000000 * u) * 2) by (apply mult_range; lra).
  pose proof (relative_small (2 * q * B2R g) ltac:(lra)) as R2. rewrite exp_relative. set (m := relative (2 * q * B2R g)) in *.
  assert (0 <= D * (1 + m) <= 15 / 16 * (16 / 15)) by (apply mult_range; lra).
  assert (0 <= (2 * n + 2 * u) * (1 + D * (1 + m)) <= (39600 * u) * 2) by (apply mult_range; lra).
  assert (MD : m * D <= 10 / 9 * (4 * (2300000 * u))).
  { apply Rle_trans with (10 / 9 * (2 * q * B2R g) * D); [apply Rmult_le_compat_r; lra|].
    replace (10 / 9 * (2 * q * B2R g) * D) with (10 / 9 * (2 * B2R g * (q * D))) by ring. apply Rmult_le_compat_l; [lra|].
    apply Rle_trans with (4 * (q * D)); [|lra]. apply Rmult_le_compat_r; [|lra]. apply Rmult_le_pos; lra. }
  lra.
Qed.
Lemma ordinary108 :
  exists y z, eval_parametric O 108 [g] x = Some y /\ eval_parametric O (-108) [g] y = Some z /\ near z (B2R x) n29.
Proof.
  pose proof u_pos as U. pose proof u_least as UT. destruct q108 as (Q & QD). pose proof p108' as P. pose proof p108 as P0. pose proof r108 as R. pose proof t108 as T. pose proof D16 as DR. pose proof V_range as VR.
  destruct lnD as (LD & _). pose proof lnN as LN. pose proof tol64_small as TS. pose proof rg108.
  assert (0 <= 2 * q * B2R g <= (72000000 * u) * 2) by (apply mult_range; lra).
  assert (0 <= 2 * r * B2R g <= (62400 * u) * 2) by (apply mult_range; lra).
  assert (0 <= 2 * p' * B2R g <= (8900 * u) * 2) by (apply mult_range; lra).
  destruct (type108_returns pow lg ex (2 * u) AP ltac:(lra) g x) as (y & z & E1 & E2 & NZ); try assumption;
    fold D; fold V; fold N; fold t; fold p; fold p'; fold r; fold q; try lra.
  - unfold N. lra.
  - exists y, z. split; [exact E1|split; [exact E2|]]. exact (near_weaken _ _ _ _ NZ error108).
Qed.
End S.
