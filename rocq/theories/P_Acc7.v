(** The bounds of C96 and C97 for ordinary parameters; cases that meet their hypotheses. *)
From Coq Require Import ZArith Reals Lia Lra Psatz.
From Flocq Require Import Core Relative IEEE754.BinarySingleNaN.
From Verif Require Import M_Base M_F64 M_Curve M_CurveF64 S_F64 S_Curve S_Accuracy P_S15 P_F64 P_Curve3 P_CurveErr P_Ideal P_CurveErr2 P_CurveErr3 P_CurveErr4 P_Acc P_Acc2 P_Acc3 P_Acc4 P_Acc5 P_Acc6.
Open Scope R_scope.

Lemma u_tiny : u <= / 1000000000.
Proof. unfold ulp_half. change (2 ^ 53)%Z with 9007199254740992%Z. apply Rinv_le_contravar; lra. Qed.
Lemma strain_same x y : 0 <= x -> 0 <= y -> 0 < x + y -> strain x y = 1.
Proof. intros X Y S. unfold strain. rewrite !Rabs_pos_eq by lra. field. lra. Qed.
Lemma relative_small t : 0 <= t <= / 10 -> 0 <= relative t <= 10 / 9 * t.
Proof. intros H. split; [now apply relative_pos|]. apply exp_small, H. Qed.

Lemma ordinary_power pow lg ex : accurate_pow (2 * u) pow -> forall g a b x, finite g -> Rabs (B2R g) <= 10 ->
  finite a -> B2R (f64_cst Ltol) <= B2R a -> finite b -> 0 <= B2R b -> finite x -> 0 <= B2R x -> let P := B2R a * B2R x + B2R b in
  0 < P -> Rabs (ln P) <= 60 ->
  exists y, eval_parametric (f64_ops pow lg ex) 2 [g; a; b] x = Some y /\ near y (Rpower P (B2R g)) (/ IZR (2 ^ 46) * Rpower P (B2R g)).
Proof.
  intros AP g a b x G G10 A TA B B0 X X0 P P0 LP. pose proof u_pos as U. pose proof u_tiny as UT. pose proof tol64_small as TS.
  assert (AX : 0 <= B2R a * B2R x) by (apply Rmult_le_pos; lra).
  assert (S : strain (B2R a * B2R x) (B2R b) = 1) by (apply strain_same; assumption || (unfold P in P0; lra)).
  pose proof (Rabs_pos (B2R g)) as G0.
  assert (UG : 0 <= u * Rabs (B2R g) <= u * 10) by (split; [apply Rmult_le_pos|apply Rmult_le_compat_l]; lra).
  destruct (type2_near pow lg ex (2 * u) AP g a b G A B x X P0) as (y & E & N); try assumption; fold P; rewrite ?S; try lra.
  { rewrite Rabs_mult. replace 600 with (10 * 60) by lra. apply Rmult_le_compat; try apply Rabs_pos; assumption. }
  exists y. split; [exact E|]. eapply near_weaken; [exact N|]. rewrite S. fold P. apply Rmult_le_compat_r; [left; apply exp_pos|].
  pose proof (relative_small (2 * u + 8 * u * 1 * Rabs (B2R g)) ltac:(lra)) as RS.
  assert (E46 : / IZR (2 ^ 46) = 128 * u). { unfold ulp_half. cbn. lra. } lra.
Qed.
Lemma ordinary_root pow lg ex : accurate_pow (2 * u) pow -> forall g a b y, finite g -> / 4 <= B2R g <= 4 ->
  finite a -> B2R (f64_cst Ltol) <= Rabs (B2R a) -> finite b -> Rabs (B2R b) <= bpow radix2 900 -> finite y -> / 65536 <= B2R y <= 1 ->
  let Y := Rpower (B2R y) (/ B2R g) in
  exists x, eval_parametric (f64_ops pow lg ex) (-2) [g; a; b] y = Some x /\
    near x (Rmax 0 ((Y - B2R b) / B2R a)) (/ IZR (2 ^ 45) * ((Y + Rabs (B2R b)) / Rabs (B2R a)) + tiny).
Proof.
  intros AP g a b y G G4 A TA B B9 FY Y1 Y. pose proof u_pos as U. pose proof u_tiny as UT. pose proof tol64_small as TS.
  pose proof (ln_16bit _ Y1) as L16. assert (G0 : 0 < B2R g) by lra. pose proof (Rinv_0_lt_compat _ G0) as I0.
  assert (I4 : / B2R g <= 4) by (rewrite <- (Rinv_inv 4); apply Rinv_le_contravar; lra). pose proof (Rabs_pos (ln (B2R y))) as L0.
  assert (RE : 0 <= root_error (2 * u) (B2R g) (B2R y) <= 79 * u).
  { unfold root_error, Rdiv. rewrite Rmult_assoc.
    assert (0 <= (Rabs (ln (B2R y)) + 8) * / B2R g <= (112 / 10 + 8) * 4) by (split; [apply Rmult_le_pos|apply Rmult_le_compat]; lra).
    assert (0 <= u * ((Rabs (ln (B2R y)) + 8) * / B2R g) <= u * ((112 / 10 + 8) * 4)) by (split; [apply Rmult_le_pos|apply Rmult_le_compat_l]; lra). lra. }
  destruct (type_m2_near pow lg ex (2 * u) AP ltac:(lra) g a b G ltac:(lra) A TA B B9 y FY) as (x & E & N); try lra.
  exists x. split; [exact E|]. eapply near_weaken; [exact N|]. unfold back_error. apply Rplus_le_compat_r. apply Rmult_le_compat_r.
  - apply Rmult_le_pos; [|left; apply Rinv_0_lt_compat; lra]. assert (0 < Y) by apply exp_pos. pose proof (Rabs_pos (B2R b)). unfold nth_root. fold Y. lra.
  - pose proof (relative_small _ ltac:(split; [apply RE|]; lra)) as RS. assert (E45 : / IZR (2 ^ 45) = 256 * u). { unfold ulp_half. cbn. lra. } lra.
Qed.

(** Cases. *)
Notation one := (f64_cst L1). Notation two := (f64_cst L2). Notation half := (f64_cst Lhalf).
Lemma two_val : B2R two = 2 /\ is_finite two = true.
Proof. destruct (cst_val L2 2 0 eq_refl ltac:(lia) ltac:(lia)) as (E & F). split; [rewrite E; cbn; lra|exact F]. Qed.
Lemma half_val : B2R half = / 2 /\ is_finite half = true.
Proof. destruct (cst_val Lhalf 1 (-1) eq_refl ltac:(lia) ltac:(lia)) as (E & F). split; [rewrite E; cbn; lra|exact F]. Qed.
Lemma ln2_range : 0 < ln 2 <= 1. Proof. pose proof ln2_lower. pose proof ln2_upper. lra. Qed.
Lemma big_900 : 100 <= bpow radix2 900.
Proof. apply Rle_trans with (bpow radix2 10); [change (bpow radix2 10) with 1024; lra|apply bpow_le; lia]. Qed.
Lemma big_800 : 100 <= bpow radix2 800.
Proof. apply Rle_trans with (bpow radix2 10); [change (bpow radix2 10) with 1024; lra|apply bpow_le; lia]. Qed.
Lemma small_1055 : 0 < bpow radix2 (-1055) <= / 1000000.
Proof. split; [apply bpow_gt_0|]. apply Rle_trans with (bpow radix2 (-20)); [apply bpow_le; lia|]. change (bpow radix2 (-20)) with (/ 1048576). lra. Qed.
Lemma small_tiny : 0 < tiny <= / 1000000.
Proof. split; [apply bpow_gt_0|]. apply Rle_trans with (bpow radix2 (-20)); [apply bpow_le; lia|]. change (bpow radix2 (-20)) with (/ 1048576). lra. Qed.
Lemma ideal_k : 0 <= 2 * u <= / 100 /\ 0 <= u <= / 100.
Proof. pose proof u_pos. lra. Qed.
Lemma abs_ln2 : Rabs (ln 2) <= 1. Proof. pose proof ln2_range. rewrite Rabs_pos_eq; lra. Qed.
Lemma abs_lnhalf : Rabs (ln (/ 2)) <= 1.
Proof. rewrite ln_Rinv by lra. rewrite Rabs_Ropp. apply abs_ln2. Qed.
