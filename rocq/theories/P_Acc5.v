(** Accuracy of the reverse curves (C97). *)
From Coq Require Import ZArith Reals Lia Lra Psatz.
From Flocq Require Import Core Relative IEEE754.BinarySingleNaN.
From Verif Require Import M_Base M_F64 M_Curve M_CurveF64 S_F64 S_Curve S_Accuracy P_S15 P_F64 P_Curve3 P_CurveErr P_Ideal P_CurveErr2 P_CurveErr3 P_CurveErr4 P_Acc P_Acc2 P_Acc3.
Open Scope R_scope.

(** By a divisor. *)
Lemma near_div x a v s : near x v s -> finite a -> B2R a <> 0 -> Rabs (v / B2R a) + s / Rabs (B2R a) <= huge ->
  near (Bdiv mode_NE x a) (v / B2R a) (s / Rabs (B2R a) + u * (Rabs (v / B2R a) + s / Rabs (B2R a)) + eta).
Proof.
  intros (F & X) A N H. pose proof (Rabs_pos_lt _ N) as P. apply near_op with (w := B2R x / B2R a); [now apply ov_div| |exact H].
  replace (B2R x / B2R a - v / B2R a) with ((B2R x - v) * / B2R a) by (field; exact N). rewrite Rabs_mult, Rabs_inv.
  apply Rmult_le_compat_r; [left; now apply Rinv_0_lt_compat|exact X].
Qed.
(** (p - b) / a from a power. *)
Lemma lower_near p Y t a b : near p Y (t * Y) -> finite a -> finite b -> 0 < Y -> bpow radix2 (-900) <= Y <= bpow radix2 900 -> 0 <= t <= 3 ->
  B2R (f64_cst Ltol) <= Rabs (B2R a) -> Rabs (B2R b) <= bpow radix2 900 ->
  near (Bdiv mode_NE (Bminus mode_NE p b) a) ((Y - B2R b) / B2R a) ((2 * t + 4 * u) * ((Y + Rabs (B2R b)) / Rabs (B2R a)) + tiny).
Proof.
  intros N A B Y0 (YL & YU) T TA B9. pose proof u_pos as U. pose proof eta_pos as E. pose proof tol64_small as TS.
  assert (E2 : eta <= 1) by (change 1 with (bpow radix2 0); apply bpow_le; lia).
  assert (H1 : 1 <= bpow radix2 900) by (change 1 with (bpow radix2 0); apply bpow_le; lia).
  assert (HH : bpow radix2 900 * 1048576 <= huge) by (change 1048576 with (bpow radix2 20); rewrite <- bpow_plus; apply bpow_le; lia).
  assert (EY : 8 * eta <= u * Y) by (apply eta_8; eapply Rle_trans; [|exact YL]; apply bpow_le; lia).
  assert (tY : 0 <= t * Y <= 3 * Y) by (split; [apply Rmult_le_pos; lra|apply Rmult_le_compat_r; lra]).
  set (Q := Y + Rabs (B2R b)). assert (D : Rabs (Y - B2R b) <= Q).
  { unfold Rminus. eapply Rle_trans; [apply Rabs_triang|]. rewrite Rabs_Ropp, (Rabs_pos_eq Y) by lra. unfold Q. lra. }
  pose proof (Rabs_pos (B2R b)) as B0. assert (Q0 : 0 < Q) by (unfold Q; lra).
  assert (M : near (Bminus mode_NE p b) (Y - B2R b) (t * Y + u * (Q + t * Y) + eta)).
  { eapply near_weaken; [apply (near_minus _ _ _ _ _ _ N (near_self b B)); unfold Q in *; lra|].
    assert (u * (Rabs (Y - B2R b) + (t * Y + 0)) <= u * (Q + t * Y)) by (apply Rmult_le_compat_l; lra). lra. }
  set (m := t * Y + u * (Q + t * Y) + eta) in *.
  assert (tYQ : t * Y <= t * Q) by (apply Rmult_le_compat_l; unfold Q; lra).
  assert (utY : u * (t * Y) <= / 1000 * (t * Y)) by (apply Rmult_le_compat_r; lra).
  assert (uY : u * Y <= u * Q) by (apply Rmult_le_compat_l; unfold Q; lra).
  assert (MB : 0 <= m <= (11 / 10 * t + 5 / 4 * u) * Q).
  { split; [unfold m; assert (0 <= u * (Q + t * Y)) by (apply Rmult_le_pos; lra); lra|]. unfold m. lra. }
  assert (NA : B2R a <> 0) by (intros Z; rewrite Z, Rabs_R0 in TA; lra). set (z := Rabs (B2R a)) in *. assert (Z0 : 0 < z) by lra.
  pose proof (Rinv_0_lt_compat _ Z0) as I0.
  assert (IU : / z <= 20000). { rewrite <- (Rinv_inv 20000). apply Rinv_le_contravar; [lra|]. destruct cst_tol as (ET & _). rewrite ET in TA. lra. }
  assert (QZ : 0 <= Q / z <= Q * 20000) by (split; [apply Rmult_le_pos; lra|apply Rmult_le_compat_l; lra]).
  assert (MZ : m / z <= (11 / 10 * t + 5 / 4 * u) * (Q / z)) by (unfold Rdiv; rewrite <- Rmult_assoc; apply Rmult_le_compat_r; lra).
  assert (MZ0 : 0 <= m / z) by (apply Rmult_le_pos; lra).
  assert (VZ : Rabs ((Y - B2R b) / B2R a) <= Q / z).
  { unfold Rdiv. rewrite Rabs_mult, Rabs_inv. fold z. apply Rmult_le_compat_r; lra. }
  assert (MZ4 : (11 / 10 * t + 5 / 4 * u) * (Q / z) <= 4 * (Q / z)) by (apply Rmult_le_compat_r; lra).
  eapply near_weaken; [apply (near_div _ _ _ _ M A NA); fold z; unfold Q in *; lra|]. fold z. rewrite tiny_eta.
  assert (u * (Rabs ((Y - B2R b) / B2R a) + m / z) <= u * (Q / z + m / z)) by (apply Rmult_le_compat_l; lra).
  assert (u * (m / z) <= / 1000 * (m / z)) by (apply Rmult_le_compat_r; lra). 
  assert (0 <= u * (Q / z)) by (apply Rmult_le_pos; lra). assert (0 <= t * (Q / z)) by (apply Rmult_le_pos; lra). lra.
Qed.

Section Roots.
Context (pow : f64 -> f64 -> f64) (lg ex : f64 -> f64) (k : R) (AP : accurate_pow k pow) (KS : 0 <= k <= / 100).
Notation O := (f64_ops pow lg ex).
Notation recip g := (Bdiv mode_NE (f64_cst L1) g).

Lemma root_log g x L t : finite g -> B2R (f64_cst Ltol) <= B2R g <= 10000 -> positive x -> Rabs (ln (B2R x) - L) <= t -> t <= B2R g ->
  Rabs L <= 600 * B2R g ->
  positive (pow x (recip g)) /\ Rabs (ln (B2R (pow x (recip g))) - L / B2R g) <= k + (u * Rabs L + 2 * t) / B2R g.
Proof.
  intros G TG X E T LB. pose proof u_pos as U. pose proof tol64_small as TS. destruct (recip_rel g G TG) as (PR & RE).
  set (q := recip g) in *. set (R' := B2R q) in *. set (G' := B2R g) in *. set (l := ln (B2R x)) in *.
  assert (T0 : 0 <= t) by (eapply Rle_trans; [apply Rabs_pos|exact E]). assert (G0 : 0 < G') by lra.
  pose proof (Rinv_0_lt_compat _ G0) as I0.
  assert (D : Rabs (R' * l - L / G') <= (u * Rabs L + 2 * t) / G').
  { replace (R' * l - L / G') with ((G' * R' * (l - L) + (G' * R' - 1) * L) * / G') by (field; lra).
    rewrite Rabs_mult, (Rabs_pos_eq (/ G')) by lra. apply Rmult_le_compat_r; [lra|]. eapply Rle_trans; [apply Rabs_triang|]. rewrite !Rabs_mult.
    assert (Rabs (G' * R' - 1) * Rabs L <= u * Rabs L) by (apply Rmult_le_compat_r; [apply Rabs_pos|exact RE]).
    assert (Rabs G' * Rabs R' * Rabs (l - L) <= 2 * t).
    { rewrite <- Rabs_mult. apply Rabs_le_inv in RE. apply Rmult_le_compat; try apply Rabs_pos; [apply Rabs_le; lra|exact E]. }
    lra. }
  assert (DB : (u * Rabs L + 2 * t) / G' <= 3).
  { apply Rmult_le_reg_r with G'; [lra|]. replace ((u * Rabs L + 2 * t) / G' * G') with (u * Rabs L + 2 * t) by (field; lra).
    assert (u * Rabs L <= / 1000 * (600 * G')) by (apply Rmult_le_compat; try apply Rabs_pos; lra). lra. }
  assert (LG : Rabs (L / G') <= 600).
  { unfold Rdiv. rewrite Rabs_mult, (Rabs_pos_eq (/ G')) by lra. apply Rmult_le_reg_r with G'; [lra|]. rewrite Rmult_assoc, Rinv_l by lra. lra. }
  destruct (AP x q X (proj1 PR)) as (Y & YE).
  { fold R' l. replace (R' * l) with ((R' * l - L / G') + L / G') by ring. eapply Rle_trans; [apply Rabs_triang|]. lra. }
  split; [exact Y|]. fold R' l in YE. replace (ln (B2R (pow x q)) - L / G') with ((ln (B2R (pow x q)) - R' * l) + (R' * l - L / G')) by ring.
  eapply Rle_trans; [apply Rabs_triang|]. lra.
Qed.
Lemma root_near g x L t : finite g -> B2R (f64_cst Ltol) <= B2R g <= 10000 -> positive x -> Rabs (ln (B2R x) - L) <= t -> 0 <= t <= B2R g ->
  Rabs L <= 600 * B2R g -> let v := exp (L / B2R g) in let e := k + (u * Rabs L + 2 * t) / B2R g in
  positive (pow x (recip g)) /\ near (pow x (recip g)) v (relative e * v) /\ 0 < v /\ bpow radix2 (-900) <= v <= bpow radix2 900 /\ 0 <= e.
Proof.
  intros G TG X E T LB v e. destruct (root_log g x L t G TG X E (proj2 T) LB) as (Y & YE). pose proof tol64_small as TS. pose proof u_pos as U.
  assert (G0 : 0 < B2R g) by lra. pose proof (Rinv_0_lt_compat _ G0) as I0.
  split; [exact Y|]. split; [now apply rel_near|]. split; [apply exp_pos|]. split.
  - apply huge_600; [apply exp_pos|]. unfold v. rewrite ln_exp. unfold Rdiv. rewrite Rabs_mult, (Rabs_pos_eq (/ B2R g)) by lra.
    apply Rmult_le_reg_r with (B2R g); [lra|]. rewrite Rmult_assoc, Rinv_l by lra. lra.
  - unfold e. pose proof (Rabs_pos L). assert (0 <= u * Rabs L) by (apply Rmult_le_pos; lra).
    assert (0 <= (u * Rabs L + 2 * t) / B2R g) by (apply Rmult_le_pos; lra). lra.
Qed.
Lemma relative_1 e : e <= 1 -> relative e <= 3.
Proof.
  intros H. unfold relative. assert (exp e <= exp 1) by (destruct H as [H| ->]; [left; now apply exp_increasing|right; reflexivity]).
  pose proof exp_le_3. lra.
Qed.
Lemma sub_log y c : finite y -> finite c -> 0 < B2R y - B2R c -> Rabs (ln (B2R y - B2R c)) <= 600 ->
  positive (Bminus mode_NE y c) /\ Rabs (ln (B2R (Bminus mode_NE y c)) - ln (B2R y - B2R c)) <= 4 * u.
Proof.
  intros Y C D LD. pose proof u_pos as U. destruct (huge_600 _ D LD) as (DL & DU).
  destruct (op_fin _ _ (ov_minus y c Y C)) as (F & E).
  { rewrite Rabs_pos_eq by lra. eapply Rle_trans; [exact DU|]. apply bpow_le. lia. }
  rewrite (Rabs_pos_eq (B2R y - B2R c)) in E by lra.
  assert (EY : 8 * eta <= u * (B2R y - B2R c)) by (apply eta_8; eapply Rle_trans; [|exact DL]; apply bpow_le; lia).
  pose proof eta_pos. destruct (ln_close (B2R (Bminus mode_NE y c)) (B2R y - B2R c) (2 * u) D ltac:(lra) ltac:(lra)) as (P & L).
  split; [now split|]. lra.
Qed.

Section Rev.
Context (g a b : f64) (G : finite g) (TG : B2R (f64_cst Ltol) <= B2R g <= 10000) (A : finite a) (TA : B2R (f64_cst Ltol) <= Rabs (B2R a))
  (B : finite b) (B9 : Rabs (B2R b) <= bpow radix2 900).
Notation back p := (Bdiv mode_NE (Bminus mode_NE p b) a).
Lemma pg' : positive g. Proof. pose proof tol64_small. split; [exact G|lra]. Qed.
Lemma ta_false : f64_ltb (Babs a) (f64_cst Ltol) = false.
Proof.
  apply Bool.not_true_iff_false. rewrite ltb_iff. intros (_ & _ & H). destruct cst_tol as (_ & FT).
  rewrite abs_ov, !ov_fin in H by assumption. lra.
Qed.
Lemma tg_false : f64_ltb (Babs g) (f64_cst Ltol) = false.
Proof. apply tol_not_ltb; [exact pg'|apply TG]. Qed.
Lemma type_m1_near y : positive y -> Rabs (ln (B2R y)) <= 600 * B2R g ->
  let v := Rpower (B2R y) (/ B2R g) in
  exists x, eval_parametric O (-1) [g] y = Some x /\ near x v (relative (k + u * Rabs (ln (B2R y)) / B2R g) * v).
Proof.
  intros Y L v. destruct (root_near g y (ln (B2R y)) 0 G TG Y) as (_ & N & _); try lra.
  { rewrite Rminus_diag_eq by reflexivity. rewrite Rabs_R0. lra. }
  { split; [lra|]. pose proof tol64_small. lra. }
  exists (pow y (recip g)). split.
  - ev. rewrite pos_not_ltb, tg_false by exact Y. reflexivity.
  - rewrite Rmult_0_r, Rplus_0_r in N. unfold v, Rpower. replace (/ B2R g * ln (B2R y)) with (ln (B2R y) / B2R g) by (unfold Rdiv; ring). exact N.
Qed.
Lemma back_near x L t : positive x -> Rabs (ln (B2R x) - L) <= t -> 0 <= t <= B2R g -> Rabs L <= 600 * B2R g ->
  let e := k + (u * Rabs L + 2 * t) / B2R g in e <= 1 -> let Y := exp (L / B2R g) in
  near (back (pow x (recip g))) ((Y - B2R b) / B2R a) ((2 * relative e + 4 * u) * ((Y + Rabs (B2R b)) / Rabs (B2R a)) + tiny).
Proof.
  intros X E T LB e E1 Y. destruct (root_near g x L t G TG X E T LB) as (_ & N & V0 & VB & e0). fold Y e in N, V0, VB, e0.
  apply lower_near; try assumption. split; [now apply relative_pos|now apply relative_1].
Qed.
Context (y : f64) (FY : finite y).
Lemma exact_log : Rabs (ln (B2R y) - ln (B2R y)) <= 0.
Proof. rewrite Rminus_diag_eq by reflexivity. rewrite Rabs_R0. lra. Qed.
Lemma g_pos : 0 < B2R g. Proof. apply pg'. Qed.
Notation root := (nth_root (B2R g)).
Lemma root_exp d : root d = exp (ln d / B2R g).
Proof. unfold nth_root, Rpower. f_equal. unfold Rdiv. ring. Qed.
(** The error of the root of [d]. *)
Notation root_err := (root_error k (B2R g)).
Notation back_err := (back_error k (B2R g) (B2R a) (B2R b)).
Lemma back_y : 0 < B2R y -> Rabs (ln (B2R y)) <= 600 * B2R g -> root_err (B2R y) <= 1 ->
  near (back (pow y (recip g))) ((root (B2R y) - B2R b) / B2R a) (back_err (B2R y)).
Proof.
  intros Y0 L E1. pose proof g_pos as G0. pose proof u_pos as U. pose proof (Rinv_0_lt_compat _ G0) as I0.
  assert (ER : k + (u * Rabs (ln (B2R y)) + 2 * 0) / B2R g <= root_err (B2R y)).
  { unfold root_error. apply Rplus_le_compat_l. apply Rmult_le_compat_r; lra. }
  eapply near_weaken; [rewrite root_exp; apply (back_near y (ln (B2R y)) 0); try lra; [now split|apply exact_log]|].
  unfold back_error. rewrite root_exp. apply Rplus_le_compat_r. apply Rmult_le_compat_r.
  - apply Rmult_le_pos; [|left; apply Rinv_0_lt_compat; pose proof tol64_small; lra]. pose proof (exp_pos (ln (B2R y) / B2R g)). pose proof (Rabs_pos (B2R b)). lra.
  - apply relative_mono in ER. lra.
Qed.
Lemma back_sub c : finite c -> 0 < B2R y - B2R c -> Rabs (ln (B2R y - B2R c)) <= 600 -> Rabs (ln (B2R y - B2R c)) <= 600 * B2R g ->
  root_err (B2R y - B2R c) <= 1 ->
  positive (Bminus mode_NE y c) /\
  near (back (pow (Bminus mode_NE y c) (recip g))) ((root (B2R y - B2R c) - B2R b) / B2R a) (back_err (B2R y - B2R c)).
Proof.
  intros C D0 L6 L E1. pose proof g_pos as G0. pose proof u_pos as U. pose proof (Rinv_0_lt_compat _ G0) as I0.
  destruct (sub_log y c FY C D0 L6) as (PD & ED). split; [exact PD|]. set (d := B2R y - B2R c) in *.
  assert (ER : k + (u * Rabs (ln d) + 2 * (4 * u)) / B2R g = root_err d).
  { unfold root_error. f_equal. unfold Rdiv. ring. }
  assert (T4 : 4 * u <= B2R g).
  { destruct cst_tol as (ET & _). assert (/ 20000 <= B2R (f64_cst Ltol)) by (rewrite ET; lra).
    assert (u <= / 100000). { unfold ulp_half. change (2 ^ 53)%Z with 9007199254740992%Z. apply Rinv_le_contravar; lra. } lra. }
  unfold back_error. rewrite root_exp, <- ER. apply (back_near (Bminus mode_NE y c) (ln d) (4 * u)); try assumption; try lra.
Qed.
Lemma type_m2_near : 0 < B2R y -> Rabs (ln (B2R y)) <= 600 * B2R g -> root_err (B2R y) <= 1 ->
  exists x, eval_parametric O (-2) [g; a; b] y = Some x /\ near x (Rmax 0 ((root (B2R y) - B2R b) / B2R a)) (back_err (B2R y)).
Proof.
  intros Y0 L E1. destruct (back_y Y0 L E1) as (F & N). set (z := back (pow y (recip g))) in *. set (v := (root (B2R y) - B2R b) / B2R a) in *.
  exists (if f64_ltb z zero then zero else z). split.
  - ev. rewrite tg_false, ta_false. cbn [orb]. rewrite (pos_not_ltb y) by (now split). reflexivity.
  - split; [destruct (f64_ltb z zero); [reflexivity|exact F]|]. eapply Rle_trans; [|exact N].
    rewrite fin_ltb by (exact F || reflexivity). change (B2R zero) with 0. unfold Rmax.
    destruct (Rlt_bool_spec (B2R z) 0) as [Z|Z]; destruct (Rle_dec 0 v) as [V|V]; change (B2R zero) with 0; unfold Rabs; repeat destruct Rcase_abs; lra.
Qed.
Lemma type_m3_near c : finite c -> 0 < B2R y - B2R c -> Rabs (ln (B2R y - B2R c)) <= 600 -> Rabs (ln (B2R y - B2R c)) <= 600 * B2R g ->
  root_err (B2R y - B2R c) <= 1 ->
  exists x, eval_parametric O (-3) [g; a; b; c] y = Some x /\ near x ((root (B2R y - B2R c) - B2R b) / B2R a) (back_err (B2R y - B2R c)).
Proof.
  intros C D0 L6 L E1. destruct (back_sub c C D0 L6 L E1) as (PD & N). eexists. split; [|exact N].
  ev. rewrite ta_false. rewrite (proj2 (geb_iff y c)) by (apply le64_fin; try assumption; lra). rewrite pos_ltb by exact PD. reflexivity.
Qed.
Lemma type_m6_near c : finite c -> 0 < B2R y - B2R c -> Rabs (ln (B2R y - B2R c)) <= 600 -> Rabs (ln (B2R y - B2R c)) <= 600 * B2R g ->
  root_err (B2R y - B2R c) <= 1 ->
  exists x, eval_parametric O (-6) [g; a; b; c] y = Some x /\ near x ((root (B2R y - B2R c) - B2R b) / B2R a) (back_err (B2R y - B2R c)).
Proof.
  intros C D0 L6 L E1. destruct (back_sub c C D0 L6 L E1) as (PD & N). eexists. split; [|exact N].
  ev. rewrite ta_false, pos_not_ltb by exact PD. reflexivity.
Qed.
Lemma fwd4_disc c d v : finite d -> eval_parametric O 4 [g; a; b; c; d] d = Some v -> positive v ->
  let e := Bplus mode_NE (Bmult mode_NE a d) b in (if f64_ltb e zero then zero else pow e g) = v.
Proof.
  intros D E V e. revert E. ev. rewrite (proj2 (geb_iff d d)) by (apply le64_refl, number_fin; exact D). fold e.
  destruct (f64_ltb zero e) eqn:P; intros [= <-]; [|destruct V as (_ & V); cbn in V; lra].
  replace (f64_ltb e zero) with false; [reflexivity|]. symmetry. apply nonneg_not_ltb. now apply pos_not_neg.
Qed.
Lemma type_m4_upper_near c d v : finite d -> eval_parametric O 4 [g; a; b; c; d] d = Some v -> positive v -> le64 v y ->
  Rabs (ln (B2R y)) <= 600 * B2R g -> root_err (B2R y) <= 1 ->
  exists x, eval_parametric O (-4) [g; a; b; c; d] y = Some x /\ near x ((root (B2R y) - B2R b) / B2R a) (back_err (B2R y)).
Proof.
  intros D E V VY L E1. assert (Y0 : 0 < B2R y). { apply le64_fin in VY; [|apply V|exact FY]. destruct V. lra. }
  pose proof (back_y Y0 L E1) as N. eexists. split; [|exact N]. pose proof (fwd4_disc c d v D E V) as X. cbv zeta in X.
  ev. rewrite X. rewrite (proj2 (geb_iff y v) VY), tg_false, ta_false. reflexivity.
Qed.
Lemma over_near c f : finite c -> finite f -> B2R (f64_cst Ltol) <= Rabs (B2R c) -> Rabs (B2R y - B2R f) <= bpow radix2 900 ->
  near (Bdiv mode_NE (Bminus mode_NE y f) c) ((B2R y - B2R f) / B2R c) (3 * u * Rabs ((B2R y - B2R f) / B2R c) + bpow radix2 (-1055)).
Proof.
  intros C F TC H. pose proof u_pos as U. pose proof eta_pos as E. pose proof tol64_small as TS.
  assert (HH : bpow radix2 900 * 1048576 <= huge) by (change 1048576 with (bpow radix2 20); rewrite <- bpow_plus; apply bpow_le; lia).
  assert (E2 : eta <= 1) by (change 1 with (bpow radix2 0); apply bpow_le; lia).
  assert (H1 : 1 <= bpow radix2 900) by (change 1 with (bpow radix2 0); apply bpow_le; lia).
  set (w := Rabs (B2R y - B2R f)) in *. assert (W0 : 0 <= w) by apply Rabs_pos.
  assert (uw : u * w <= / 1000 * w) by (apply Rmult_le_compat_r; lra).
  assert (M : near (Bminus mode_NE y f) (B2R y - B2R f) (u * w + eta)).
  { eapply near_weaken; [apply (near_minus _ _ _ _ _ _ (near_self y FY) (near_self f F)); fold w; lra|]. fold w. lra. }
  assert (NC : B2R c <> 0) by (intros Z; rewrite Z, Rabs_R0 in TC; lra). set (z := Rabs (B2R c)) in *. assert (Z0 : 0 < z) by lra.
  pose proof (Rinv_0_lt_compat _ Z0) as I0.
  assert (IU : / z <= 20000). { rewrite <- (Rinv_inv 20000). apply Rinv_le_contravar; [lra|]. destruct cst_tol as (ET & _). rewrite ET in TC. lra. }
  assert (WZ : Rabs ((B2R y - B2R f) / B2R c) = w / z) by (unfold Rdiv; rewrite Rabs_mult, Rabs_inv; reflexivity).
  assert (wz : 0 <= w / z <= w * 20000) by (split; [apply Rmult_le_pos; lra|apply Rmult_le_compat_l; lra]).
  assert (SZ : (u * w + eta) / z = u * (w / z) + eta * / z) by (unfold Rdiv; ring).
  assert (ez : 0 <= eta * / z <= eta * 20000) by (split; [apply Rmult_le_pos; lra|apply Rmult_le_compat_l; lra]).
  assert (uwz : u * (w / z) <= / 1000 * (w / z)) by (apply Rmult_le_compat_r; lra).
  eapply near_weaken; [apply (near_div _ _ _ _ M C NC); fold z; rewrite WZ, SZ; lra|]. fold z. rewrite WZ, SZ.
  assert (u * (u * (w / z) + eta * / z) <= / 1000 * (u * (w / z) + eta * / z)) by (apply Rmult_le_compat_r; [assert (0 <= u * (w / z)) by (apply Rmult_le_pos; lra)|]; lra).
  assert (EE : 30000 * eta <= bpow radix2 (-1055)).
  { change (bpow radix2 (-1055)) with (bpow radix2 (20 + -1075)). rewrite bpow_plus. change (bpow radix2 20) with 1048576. lra. }
  assert (0 <= u * (w / z)) by (apply Rmult_le_pos; lra). lra.
Qed.
Lemma tc_false c : finite c -> B2R (f64_cst Ltol) <= Rabs (B2R c) -> f64_ltb (Babs c) (f64_cst Ltol) = false.
Proof.
  intros C TC. apply Bool.not_true_iff_false. rewrite ltb_iff. intros (_ & _ & H). destruct cst_tol as (_ & FT).
  rewrite abs_ov, !ov_fin in H by assumption. lra.
Qed.
Lemma lt_geb z w : lt64 z w -> f64_geb z w = false.
Proof. intros (_ & N). apply Bool.not_true_iff_false. rewrite geb_iff. exact N. Qed.
Lemma type_m4_lower_near c d v : finite c -> B2R (f64_cst Ltol) <= Rabs (B2R c) -> finite d -> eval_parametric O 4 [g; a; b; c; d] d = Some v -> positive v ->
  lt64 y v -> Rabs (B2R y) <= bpow radix2 900 ->
  exists x, eval_parametric O (-4) [g; a; b; c; d] y = Some x /\ near x (B2R y / B2R c) (3 * u * Rabs (B2R y / B2R c) + tiny).
Proof.
  intros C TC D E V VY H. pose proof (fwd4_disc c d v D E V) as X. cbv zeta in X. pose proof tol64_small as TS. pose proof eta_pos as EP. pose proof u_pos as U.
  assert (HH : bpow radix2 900 * 1048576 <= huge) by (change 1048576 with (bpow radix2 20); rewrite <- bpow_plus; apply bpow_le; lia).
  assert (NC : B2R c <> 0) by (intros Z; rewrite Z, Rabs_R0 in TC; lra). 
  assert (IU : / Rabs (B2R c) <= 20000). { rewrite <- (Rinv_inv 20000). apply Rinv_le_contravar; [lra|]. destruct cst_tol as (ET & _). rewrite ET in TC. lra. }
  exists (Bdiv mode_NE y c). split.
  - ev. rewrite X, (lt_geb y v VY), tc_false by assumption. reflexivity.
  - assert (Q : Rabs (B2R y / B2R c) <= bpow radix2 900 * 20000).
    { unfold Rdiv. rewrite Rabs_mult, Rabs_inv. apply Rmult_le_compat; try apply Rabs_pos; try assumption. left. apply Rinv_0_lt_compat. lra. }
    pose proof (bpow_gt_0 radix2 900).
    assert (Z : 0 / Rabs (B2R c) = 0) by (unfold Rdiv; ring).
    eapply near_weaken; [apply (near_div y c (B2R y) 0 (near_self y FY) C NC); rewrite Z; lra|]. rewrite Z, tiny_eta.
    pose proof (Rabs_pos (B2R y / B2R c)). nra.
Qed.
Lemma type_m5_upper_near c d e f : le64 (Bplus mode_NE (Bmult mode_NE c d) f) y ->
  finite e -> 0 < B2R y - B2R e -> Rabs (ln (B2R y - B2R e)) <= 600 -> Rabs (ln (B2R y - B2R e)) <= 600 * B2R g ->
  root_err (B2R y - B2R e) <= 1 ->
  exists x, eval_parametric O (-5) [g; a; b; c; d; e; f] y = Some x /\ near x ((root (B2R y - B2R e) - B2R b) / B2R a) (back_err (B2R y - B2R e)).
Proof.
  intros LY C D0 L6 L E1. destruct (back_sub e C D0 L6 L E1) as (PD & N). eexists. split; [|exact N].
  ev. rewrite (proj2 (geb_iff y _) LY), pos_not_ltb, tg_false, ta_false by exact PD. reflexivity.
Qed.
Lemma type_m5_lower_near c d e f : lt64 y (Bplus mode_NE (Bmult mode_NE c d) f) -> finite c -> B2R (f64_cst Ltol) <= Rabs (B2R c) ->
  finite f -> Rabs (B2R y - B2R f) <= bpow radix2 900 ->
  exists x, eval_parametric O (-5) [g; a; b; c; d; e; f] y = Some x /\
    near x ((B2R y - B2R f) / B2R c) (3 * u * Rabs ((B2R y - B2R f) / B2R c) + bpow radix2 (-1055)).
Proof.
  intros LY C TC F H. eexists. split; [|now apply over_near]. ev. rewrite (lt_geb _ _ LY), tc_false by assumption. reflexivity.
Qed.
End Rev.
End Roots.
