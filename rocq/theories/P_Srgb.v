(** The sRGB curve at binary64. *)
From Coq Require Import ZArith Reals Lia Lra Psatz.
From Flocq Require Import Core IEEE754.BinarySingleNaN.
From Verif Require Import M_Base M_F64 M_Curve M_CurveF64 S_F64 S_Srgb P_S15 P_F64 P_Curve3 P_CurveErr P_Ideal P_CurveErr2 P_CurveErr3 P_CurveErr4.
Open Scope R_scope.

Lemma near_range t x v : within t x v -> finite x /\ v - t <= B2R x <= v + t.
Proof. intros (F & H). split; [exact F|]. apply Rabs_le_inv in H. lra. Qed.
Lemma u_tiny : 0 < u <= / 1000000000000000.
Proof.
  unfold ulp_half. change (2 ^ 53)%Z with 9007199254740992%Z. split; [apply Rinv_0_lt_compat; lra|]. apply Rinv_le_contravar; lra.
Qed.
Lemma exp_lower_pow x n : 0 <= 1 + x / INR n -> (0 < n)%nat -> (1 + x / INR n) ^ n <= exp x.
Proof.
  intros H N. assert (N0 : 0 < INR n) by now apply lt_0_INR. replace x with (INR n * (x / INR n)) at 2 by (field; lra). rewrite exp_pow.
  apply pow_incr. split; [exact H|]. apply exp_ineq1_le.
Qed.
Lemma ln_of_exp x y : 0 < y -> exp x <= y -> x <= ln y.
Proof. intros Y H. rewrite <- (ln_exp x). destruct H as [H| <-]; [left; apply ln_increasing; [apply exp_pos|exact H]|lra]. Qed.
Lemma ln_le_exp x y : 0 < y -> y <= exp x -> ln y <= x.
Proof. intros Y H. rewrite <- (ln_exp x). destruct H as [H| ->]; [left; now apply ln_increasing|lra]. Qed.
Lemma ln_mono x y : 0 < x -> x <= y -> ln x <= ln y.
Proof. intros X [H| ->]; [left; now apply ln_increasing|lra]. Qed.
(** -2.5 <= ln 0.09 *)
Lemma ln_009 : - (5 / 2) <= ln (9 / 100).
Proof.
  apply ln_of_exp; [lra|]. rewrite exp_Ropp. apply Rle_trans with (/ (100 / 9)); [|right; field]. apply Rinv_le_contravar; [lra|].
  assert (N : INR 40 = 40) by (cbn [INR]; lra).
  eapply Rle_trans; [|apply (exp_lower_pow (5 / 2) 40)]; rewrite ?N; [lra|lra|lia].
Qed.

Lemma ln_pow x n : 0 < x -> ln (x ^ n) = INR n * ln x.
Proof. intros X. rewrite <- Rpower_pow by exact X. unfold Rpower. apply ln_exp. Qed.
(** 2.4 ln 0.09047393 >= ln 0.0031308063 *)
Lemma ln_break : ln (31308063 / 10000000000) <= 24 / 10 * ln (9047393 / 100000000).
Proof.
  assert (H : ln ((31308063 / 10000000000) ^ 5) <= ln ((9047393 / 100000000) ^ 12)) by (apply ln_mono; [apply pow_lt; lra|lra]).
  rewrite !ln_pow in H by lra. cbn [INR] in H. lra.
Qed.
Lemma ln_step : ln (31308061 / 10000000000) + / 100000000 <= ln (31308063 / 10000000000).
Proof.
  replace (31308063 / 10000000000) with (31308061 / 10000000000 * (31308063 / 31308061)) by lra. rewrite ln_mult by lra. apply Rplus_le_compat_l.
  apply ln_of_exp; [lra|]. eapply Rle_trans; [apply exp_upper; lra|]. lra.
Qed.
Section Srgb.
Context (pow : f64 -> f64 -> f64) (lg ex : f64 -> f64) (AP : accurate_pow (2 * ulp_half) pow) (MP : monotone_pow pow).
Context (g a b c d : f64).
Notation O := (f64_ops pow lg ex).
Lemma break_value_lower : srgb_params (/ 10000000000) g a b c d ->
  let E := Bplus mode_NE (Bmult mode_NE a d) b in positive E /\ finite (pow E g) /\ 31308061 / 10000000000 < B2R (pow E g).
Proof.
  intros SP. destruct SP as (Hg & Ha & Hb & Hc & Hd). apply near_range in Hg, Ha, Hb, Hc, Hd.
  destruct Hg as (G & Rg), Ha as (A & Ra), Hb as (B & Rb), Hc as (C & Rc), Hd as (D & Rd). pose proof u_tiny as U.
  assert (TT : B2R (f64_cst Ltol) < 2 / 10000) by (rewrite (proj1 cst_tol); lra). pose proof tol64_small as TS.
  assert (P1 : 0 < B2R a * B2R d + B2R b) by nra.
  assert (PB : 90473932 / 1000000000 <= B2R a * B2R d + B2R b <= 91 / 1000) by nra.
  assert (LP : Rabs (ln (B2R a * B2R d + B2R b)) <= 600).
  { assert (ln (9 / 100) <= ln (B2R a * B2R d + B2R b)) by (apply ln_mono; lra). pose proof ln_009.
    assert (ln (B2R a * B2R d + B2R b) <= 0) by (rewrite <- ln_1; apply ln_mono; lra). rewrite Rabs_left1 by assumption. lra. }
  destruct (raise_err a b A ltac:(lra) B ltac:(lra) d D ltac:(lra) P1 LP) as ((FE & PE) & EE).
  set (E := Bplus mode_NE (Bmult mode_NE a d) b) in *. set (P := B2R a * B2R d + B2R b) in *.
  apply Rabs_le_inv in EE. assert (EB : 9047393 / 100000000 <= B2R E <= 1) by nra.
  assert (LE : - (5 / 2) <= ln (B2R E) <= 0).
  { split; [eapply Rle_trans; [apply ln_009|apply ln_mono; lra]|rewrite <- ln_1; apply ln_mono; lra]. }
  destruct (AP E g (conj FE PE) G) as ((FY & PY) & EY).
  { rewrite Rabs_mult, Rabs_pos_eq by lra. rewrite Rabs_left1 by lra. nra. }
  assert (LY : ln (31308061 / 10000000000) < ln (B2R (pow E g))).
  { apply Rabs_le_inv in EY. pose proof ln_break. pose proof ln_step.
    assert (ln (9047393 / 100000000) <= ln (B2R E)) by (apply ln_mono; lra).
    assert (B2R g * ln (B2R E) >= 24 / 10 * ln (B2R E) - / 1000000000) by nra. lra. }
  split; [split; assumption|]. split; [exact FY|]. apply Rnot_le_lt. intros H. apply ln_mono in H; [|exact PY]. lra.
Qed.
Lemma break_order : srgb_params (/ 10000000000) g a b c d -> lt64 (Bmult mode_NE d c) (pow (Bplus mode_NE (Bmult mode_NE a d) b) g).
Proof.
  intros SP. destruct (break_value_lower SP) as (_ & FY & YB). set (E := Bplus mode_NE (Bmult mode_NE a d) b) in *.
  destruct SP as (_ & _ & _ & Hc & Hd). apply near_range in Hc, Hd. destruct Hc as (C & Rc), Hd as (D & Rd). pose proof u_tiny as U.
  destruct (op_fin _ _ (ov_mult d c D C)) as (FM & EM).
  { rewrite Rabs_pos_eq by nra. apply Rle_trans with (bpow radix2 10); [change (bpow radix2 10) with 1024; nra|apply bpow_le; lia]. }
  assert (DC : 0 <= B2R d * B2R c <= 31308050 / 10000000000) by nra. rewrite (Rabs_pos_eq (B2R d * B2R c)) in EM by lra. apply Rabs_le_inv in EM.
  assert (eta <= / 1000000000000000).
  { apply Rle_trans with (bpow radix2 (-60)); [apply bpow_le; lia|]. change (bpow radix2 (-60)) with (/ 1152921504606846976). apply Rinv_le_contravar; lra. }
  split; rewrite le64_fin by assumption; nra.
Qed.
Lemma wide_round r : srgb_params (/ 100000) g a b c d -> lt64 (Bmult mode_NE d c) (pow (Bplus mode_NE (Bmult mode_NE a d) b) g) -> finite r -> 0 <= B2R r <= 1 ->
  exists y z, eval_parametric O 4 [g; a; b; c; d] r = Some y /\ eval_parametric O (-4) [g; a; b; c; d] y = Some z /\ finite z /\
    Rabs (B2R z - B2R r) <= / IZR (2 ^ 47) * B2R r + bpow radix2 (-1060).
Proof.
  intros SP BO R RR. destruct SP as (Hg & Ha & Hb & Hc & Hd). apply near_range in Hg, Ha, Hb, Hc, Hd.
  destruct Hg as (G & Rg), Ha as (A & Ra), Hb as (B & Rb), Hc as (C & Rc), Hd as (D & Rd). pose proof u_tiny as U.
  assert (TT : B2R (f64_cst Ltol) < 2 / 10000) by (rewrite (proj1 cst_tol); lra). pose proof tol64_small as TS.
  assert (U64 : / IZR (2 ^ 47) = 64 * u).
  { unfold ulp_half. change (2 ^ 53)%Z with 9007199254740992%Z. change (2 ^ 47)%Z with 140737488355328%Z. lra. }
  destruct (Rle_dec (B2R d) (B2R r)) as [L|L].
  - assert (P1 : 9 / 100 <= B2R a * B2R r + B2R b <= 1001 / 1000) by nra. set (P := B2R a * B2R r + B2R b) in *.
    assert (LP : Rabs (ln P) <= 5 / 2).
    { apply Rabs_le. split; [eapply Rle_trans; [apply ln_009|apply ln_mono; lra]|].
      apply ln_le_exp; [lra|]. pose proof (exp_ineq1_le (5 / 2)). lra. }
    destruct (type4_upper_err pow lg ex (2 * u) AP g a b G ltac:(lra) A ltac:(lra) B ltac:(lra) ltac:(lra) ltac:(lra) MP c d D ltac:(lra) r R L) as
      (y & z & E1 & E2 & FZ & ZE); [fold P; lra|fold P; lra|fold P; nra|]. fold P in ZE.
    exists y, z. split; [exact E1|]. split; [exact E2|]. split; [exact FZ|]. eapply Rle_trans; [exact ZE|].
    assert (IG : 0 < / B2R g <= / 2) by (split; [apply Rinv_0_lt_compat; lra|apply Rinv_le_contravar; lra]).
    assert (LB : 0 <= log_err (2 * u) g P <= 7 * u).
    { unfold log_err, Rdiv. pose proof (Rabs_pos (ln P)). split.
      - apply Rplus_le_le_0_compat; apply Rmult_le_pos; nra.
      - assert ((1 + u) * / B2R g <= 3 / 4 ) by nra.
        assert ((1 + (1 + u) * / B2R g) * (2 * u) <= (1 + 3 / 4) * (2 * u)) by (apply Rmult_le_compat_r; lra).
        assert (u * (Rabs (ln P) + 1) <= u * (7 / 2)) by (apply Rmult_le_compat_l; lra). lra. }
    pose proof (exp_small (log_err (2 * u) g P) ltac:(lra)) as XS.
    assert (BA : B2R b / B2R a <= 56 / 1000).
    { apply Rmult_le_reg_r with (B2R a); [lra|]. unfold Rdiv. rewrite Rmult_assoc, Rinv_l by lra. nra. }
    assert (RB : B2R r + B2R b / B2R a <= 24 / 10 * B2R r) by lra.
    assert (R1 : 0 <= B2R b / B2R a) by (apply Rmult_le_pos; [lra|left; apply Rinv_0_lt_compat; lra]).
    pose proof (exp_ineq1_le (log_err (2 * u) g P)) as X0.
    apply Rle_trans with (24 * u * (24 / 10 * B2R r)); [apply Rmult_le_compat; lra|].
    pose proof (bpow_gt_0 radix2 (-1060)). rewrite U64. nra.
  - destruct (type4_lower_err pow lg ex g a b A ltac:(lra) B ltac:(lra) c d C ltac:(lra) D ltac:(lra) BO r R) as
      (y & z & E1 & E2 & FZ & ZE); [lra|]. exists y, z. split; [exact E1|]. split; [exact E2|]. split; [exact FZ|]. eapply Rle_trans; [exact ZE|].
    rewrite U64. nra.
Qed.
Lemma srgb_narrow t t' : t <= t' -> srgb_params t g a b c d -> srgb_params t' g a b c d.
Proof. intros T (Hg & Ha & Hb & Hc & Hd). repeat split; try (apply Hg || apply Ha || apply Hb || apply Hc || apply Hd); eapply Rle_trans; try exact T; (apply Hg || apply Ha || apply Hb || apply Hc || apply Hd). Qed.
Lemma srgb_round : srgb_params (/ 10000000000) g a b c d -> forall r, finite r -> 0 <= B2R r <= 1 ->
  exists y z, eval_parametric O 4 [g; a; b; c; d] r = Some y /\ eval_parametric O (-4) [g; a; b; c; d] y = Some z /\ finite z /\
    Rabs (B2R z - B2R r) <= / IZR (2 ^ 47) * B2R r + bpow radix2 (-1060).
Proof. intros SP r. apply wide_round; [apply srgb_narrow with (2 := SP); lra|now apply break_order]. Qed.
End Srgb.
