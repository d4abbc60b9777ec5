(** Round trips of the computed curves (C100). *)
From Coq Require Import ZArith Reals Lia Lra Psatz.
From Flocq Require Import Core IEEE754.BinarySingleNaN.
From Verif Require Import M_Base M_F64 M_Curve M_CurveF64 S_F64 S_Curve S_Accuracy S_Return
  P_S15 P_F64 P_Curve3 P_CurveErr P_Ideal P_CurveErr2 P_CurveErr3 P_CurveErr4 P_Acc P_Acc2 P_Acc3 P_Acc4 P_Acc5.
Open Scope R_scope.

Lemma exp_le s t : s <= t -> exp s <= exp t.
Proof. intros [H | ->]; [left; now apply exp_increasing|lra]. Qed.

Lemma mult_comm (x y : f64) : Bmult mode_NE x y = Bmult mode_NE y x.
Proof.
  destruct x as [sx|sx| |sx mx ex Bx], y as [sy|sy| |sy my ey By]; try reflexivity; try (cbn; now rewrite Bool.xorb_comm).
  apply B2SF_inj. cbn [Bmult]. rewrite !B2SF_SF2B. now rewrite Bool.xorb_comm, Pos.mul_comm, Z.add_comm.
Qed.

(** A number off by a relative error, its logarithm, its root. *)
Lemma off_by V D r : 0 < V -> Rabs (D - V) <= r * V -> r <= / 4 -> 0 < D /\ Rabs (ln D - ln V) <= 2 * r.
Proof.
  intros V0 H R. assert (Q : Rabs ((D - V) / V) <= r).
  { unfold Rdiv. rewrite Rabs_mult, Rabs_inv, (Rabs_pos_eq V) by lra. apply Rmult_le_reg_r with V; [exact V0|].
    rewrite Rmult_assoc, Rinv_l by lra. lra. }
  assert (E : D = V * (1 + (D - V) / V)) by (field; lra).
  assert (P1 : 0 < 1 + (D - V) / V). { apply Rabs_le_inv in Q. lra. }
  split. { rewrite E. now apply Rmult_lt_0_compat. }
  rewrite E at 1. rewrite ln_mult by assumption. replace (ln V + ln (1 + (D - V) / V) - ln V) with (ln (1 + (D - V) / V)) by ring.
  eapply Rle_trans; [apply ln_near; lra|lra].
Qed.

Lemma root_back g P D r : 0 < g -> 0 < P -> Rabs (D - Rpower P g) <= r * Rpower P g -> r <= / 4 ->
  0 < D /\ Rabs (ln D) <= g * Rabs (ln P) + 2 * r /\
  Rabs (nth_root g D - P) <= relative (2 * r / g) * P /\ 0 < nth_root g D <= P * exp (2 * r / g).
Proof.
  intros G P0 H R. assert (V0 : 0 < Rpower P g) by apply exp_pos.
  destruct (off_by _ _ _ V0 H R) as (D0 & L). rewrite ln_Rpower in L by exact P0 || (unfold Rpower in L; rewrite ln_exp in L).
  assert (N0 : 0 < nth_root g D) by apply exp_pos.
  assert (LN : Rabs (ln (nth_root g D) - ln P) <= 2 * r / g).
  { unfold nth_root, Rpower. rewrite ln_exp. replace (/ g * ln D - ln P) with ((ln D - g * ln P) * / g) by (field; lra).
    rewrite Rabs_mult, (Rabs_pos_eq (/ g)) by (left; now apply Rinv_0_lt_compat).
    unfold Rdiv. apply Rmult_le_compat_r; [left; now apply Rinv_0_lt_compat|exact L]. }
  split; [exact D0|]. split; [|split; [|split; [exact N0|]]].
  - replace (ln D) with ((ln D - g * ln P) + g * ln P) by ring. eapply Rle_trans; [apply Rabs_triang|].
    rewrite Rabs_mult, (Rabs_pos_eq g) by lra. lra.
  - now apply rel_of_ln.
  - rewrite <- (exp_ln (nth_root g D)) by exact N0. rewrite <- (exp_ln P) at 1 by exact P0. rewrite <- exp_plus.
    apply exp_le. apply Rabs_le_inv in LN. lra.
Qed.

Section Back.
Context (k g a b x P D r : R) (K : 0 <= k) (G : 0 < g) (A : a <> 0) (P0 : 0 < P) (EP : P = a * x + b)
  (H : Rabs (D - Rpower P g) <= r * Rpower P g) (R : r <= / 4).

Lemma root_error_le : 0 <= root_error k g D <= k + u * (Rabs (ln P) + 9 / g).
Proof.
  destruct (root_back g P D r G P0 H R) as (D0 & L & _). pose proof u_pos as U. unfold root_error.
  assert (IG : 0 < / g) by now apply Rinv_0_lt_compat.
  split.
  - apply Rplus_le_le_0_compat; [exact K|]. unfold Rdiv. apply Rmult_le_pos; [|lra]. apply Rmult_le_pos; [lra|]. pose proof (Rabs_pos (ln D)). lra.
  - apply Rplus_le_compat_l. unfold Rdiv. rewrite Rmult_assoc. apply Rmult_le_compat_l; [lra|].
    replace (Rabs (ln P)) with (g * Rabs (ln P) * / g) by (field; lra). rewrite <- Rmult_plus_distr_r.
    apply Rmult_le_compat_r; lra.
Qed.

Lemma comes_back z : near z ((nth_root g D - b) / a) (back_error k g a b D) -> near z x (again_error k g a b P r).
Proof.
  intros (F & E). split; [exact F|]. destruct (root_back g P D r G P0 H R) as (D0 & L & N1 & N2). pose proof u_pos as U.
  assert (IA : 0 < / Rabs a) by (apply Rinv_0_lt_compat; now apply Rabs_pos_lt).
  replace (B2R z - x) with ((B2R z - (nth_root g D - b) / a) + (nth_root g D - P) * / a) by (rewrite EP; field; exact A).
  eapply Rle_trans; [apply Rabs_triang|]. unfold again_error. apply Rplus_le_compat.
  - eapply Rle_trans; [exact E|]. unfold back_error. apply Rplus_le_compat_r. pose proof root_error_le as (T0 & T1).
    pose proof (relative_pos _ T0). pose proof (relative_mono _ _ T1). pose proof (Rabs_pos b).
    apply Rmult_le_compat; [lra| |lra|].
    + unfold Rdiv. apply Rmult_le_pos; lra.
    + unfold Rdiv. apply Rmult_le_compat_r; lra.
  - rewrite Rabs_mult, Rabs_inv. unfold Rdiv. rewrite <- Rmult_assoc. apply Rmult_le_compat_r; [lra|exact N1].
Qed.
End Back.

Section Powers.
Context (pow : f64 -> f64 -> f64) (lg ex : f64 -> f64) (k : R) (AP : accurate_pow k pow) (K : 0 <= k <= / 100).
Notation O := (f64_ops pow lg ex).
Context (g a b x : f64) (G : finite g) (TG : B2R (f64_cst Ltol) <= B2R g <= 10000) (A : finite a) (TA : B2R (f64_cst Ltol) <= Rabs (B2R a))
  (B : finite b) (B9 : Rabs (B2R b) <= bpow radix2 900) (X : finite x).
Let P := B2R a * B2R x + B2R b.
Let s := strain (B2R a * B2R x) (B2R b).
Context (P0 : 0 < P) (LP : Rabs (ln P) <= 590) (GP : B2R g * Rabs (ln P) <= 590) (S : 8 * ulp_half * s <= 1) (SG : 8 * ulp_half * s * B2R g <= 1).

Lemma gp : 0 < B2R g. Proof. pose proof tol64_small. lra. Qed.
Lemma gabs : Rabs (B2R g) = B2R g. Proof. pose proof gp. apply Rabs_pos_eq. lra. Qed.
Lemma anz : B2R a <> 0. Proof. pose proof tol64_small. intros E. rewrite E, Rabs_R0 in TA. lra. Qed.
Lemma gln : Rabs (B2R g * ln P) <= 600. Proof. rewrite Rabs_mult, gabs. lra. Qed.
Lemma sgabs : 8 * ulp_half * s * Rabs (B2R g) <= 1. Proof. now rewrite gabs. Qed.
Lemma lp6 : Rabs (ln P) <= 600. Proof. lra. Qed.
Lemma s_ge : 1 <= s. Proof. apply strain_ge_1. fold P. lra. Qed.

Section Offset.
Context (c : f64) (C : finite c) (C9 : Rabs (B2R c) <= bpow radix2 900).
Let r := there_error k (B2R g) P s (B2R c).
Context (R : r <= / 4) (RG : 2 * r <= B2R g).

Lemma r_pos : 0 <= r.
Proof.
  pose proof u_pos as U. pose proof s_ge as S1. pose proof gp as G0. unfold r, there_error.
  assert (0 <= relative (k + 8 * u * s * Rabs (B2R g))).
  { apply relative_pos. rewrite gabs. apply Rplus_le_le_0_compat; [lra|]. apply Rmult_le_pos; [|lra]. apply Rmult_le_pos; lra. }
  assert (0 <= u * Rabs (Rpower P (B2R g) + B2R c) / Rpower P (B2R g)).
  { unfold Rdiv. apply Rmult_le_pos; [apply Rmult_le_pos; [lra|apply Rabs_pos]|left; apply Rinv_0_lt_compat, exp_pos]. }
  lra.
Qed.

Lemma there y : near y (Rpower P (B2R g) + B2R c)
    ((2 * relative (k + 8 * ulp_half * s * Rabs (B2R g)) + ulp_half) * Rpower P (B2R g) + ulp_half * Rabs (Rpower P (B2R g) + B2R c)) ->
  finite y /\ Rabs (B2R y - B2R c - Rpower P (B2R g)) <= r * Rpower P (B2R g).
Proof.
  intros (F & E). split; [exact F|]. replace (B2R y - B2R c - Rpower P (B2R g)) with (B2R y - (Rpower P (B2R g) + B2R c)) by ring.
  eapply Rle_trans; [exact E|]. right. unfold r, there_error. field. apply Rgt_not_eq, exp_pos.
Qed.

Lemma and_back (y : f64) : Rabs (B2R y - B2R c - Rpower P (B2R g)) <= r * Rpower P (B2R g) ->
  0 < B2R y - B2R c /\ Rabs (ln (B2R y - B2R c)) <= 600 /\ Rabs (ln (B2R y - B2R c)) <= 600 * B2R g /\
  root_error k (B2R g) (B2R y - B2R c) <= 1.
Proof.
  intros H. destruct (root_back _ _ _ _ gp P0 H R) as (D0 & L & _). pose proof gp as G0. pose proof r_pos.
  split; [exact D0|]. split; [lra|]. split; [nra|].
  destruct (root_error_le k (B2R g) P _ r (proj1 K) gp P0 H R) as (_ & E). eapply Rle_trans; [exact E|].
  pose proof u_pos. assert (TL : / 20000 <= B2R g) by (destruct cst_tol as (ET & _); rewrite ET in TG; lra).
  assert (9 / B2R g <= 180000).
  { unfold Rdiv. apply Rmult_le_reg_r with (B2R g); [exact G0|]. rewrite Rmult_assoc, Rinv_l by lra. lra. }
  assert (u <= / 1000000). { unfold ulp_half. change (2 ^ 53)%Z with 9007199254740992%Z. apply Rinv_le_contravar; lra. }
  assert (u * (Rabs (ln P) + 9 / B2R g) <= / 1000000 * 190000); [|lra].
  apply Rmult_le_compat; try lra. pose proof (Rabs_pos (ln P)).
  assert (0 < 9 / B2R g) by (unfold Rdiv; apply Rmult_lt_0_compat; [lra|now apply Rinv_0_lt_compat]). lra.
Qed.

Let back (z y : f64) := near z ((nth_root (B2R g) (B2R y - B2R c) - B2R b) / B2R a) (back_error k (B2R g) (B2R a) (B2R b) (B2R y - B2R c)).
Lemma returns (z y : f64) : Rabs (B2R y - B2R c - Rpower P (B2R g)) <= r * Rpower P (B2R g) -> back z y ->
  near z (B2R x) (again_error k (B2R g) (B2R a) (B2R b) P r).
Proof. intros H. exact (comes_back k _ _ _ _ P _ r (proj1 K) gp anz P0 eq_refl H R z). Qed.

Lemma type3_returns : 0 < B2R a -> 0 <= B2R x ->
  exists y z, eval_parametric O 3 [g; a; b; c] x = Some y /\ eval_parametric O (-3) [g; a; b; c] y = Some z /\
    near z (B2R x) (again_error k (B2R g) (B2R a) (B2R b) P r).
Proof.
  intros A0 X0. assert (TA' : B2R (f64_cst Ltol) <= B2R a) by (rewrite <- (Rabs_pos_eq (B2R a)) by lra; exact TA).
  destruct (type3_near pow lg ex k AP g a b G A B x X P0 lp6 gln S sgabs K c TA' C C9 X0) as (y & EY & N).
  destruct (there y N) as (FY & H). destruct (and_back y H) as (D0 & L1 & L2 & L3).
  destruct (type_m3_near pow lg ex k AP K g a b G TG A TA B B9 y FY c C D0 L1 L2 L3) as (z & EZ & NZ).
  exists y, z. split; [exact EY|]. split; [exact EZ|]. now apply (returns z y).
Qed.

Lemma type6_returns :
  exists y z, eval_parametric O 6 [g; a; b; c] x = Some y /\ eval_parametric O (-6) [g; a; b; c] y = Some z /\
    near z (B2R x) (again_error k (B2R g) (B2R a) (B2R b) P r).
Proof.
  destruct (type6_near pow lg ex k AP g a b G A B x X P0 lp6 gln S sgabs K c C C9) as (y & EY & N).
  destruct (there y N) as (FY & H). destruct (and_back y H) as (D0 & L1 & L2 & L3).
  destruct (type_m6_near pow lg ex k AP K g a b G TG A TA B B9 y FY c C D0 L1 L2 L3) as (z & EZ & NZ).
  exists y, z. split; [exact EY|]. split; [exact EZ|]. now apply (returns z y).
Qed.

(** Type 5 above its break, when the line does not end above the power there. *)
Lemma type5_returns cl d f : 0 < B2R a -> monotone_pow pow -> positive cl -> finite d -> B2R d <= B2R x -> finite f ->
  (forall v, eval_parametric O 5 [g; a; b; cl; d; c; f] d = Some v -> le64 (Bplus mode_NE (Bmult mode_NE d cl) f) v) ->
  exists y z, eval_parametric O 5 [g; a; b; cl; d; c; f] x = Some y /\ eval_parametric O (-5) [g; a; b; cl; d; c; f] y = Some z /\
    near z (B2R x) (again_error k (B2R g) (B2R a) (B2R b) P r).
Proof.
  intros A0 MP CL D DX F J.
  destruct (type5_upper_near pow lg ex k AP g a b G A B x X P0 lp6 gln S sgabs K cl d c f D DX C C9) as (y & EY & N).
  destruct (there y N) as (FY & H). destruct (and_back y H) as (D0 & L1 & L2 & L3).
  assert (LY : le64 (Bplus mode_NE (Bmult mode_NE cl d) f) y).
  { assert (exists v, eval_parametric O 5 [g; a; b; cl; d; c; f] d = Some v) as (v & EV) by (eexists; reflexivity).
    apply le64_trans with v; [rewrite mult_comm; now apply J|].
    destruct (type5_mono pow lg ex MP g a b cl d c f (conj G gp) (conj A A0) B CL (proj2 (number_nan d) (fin_not_nan d D)) C F J d x) as (v' & y' & E1 & E2 & L).
    { now apply le64_fin. }
    rewrite EV in E1. rewrite EY in E2. injection E1 as <-. injection E2 as <-. exact L. }
  destruct (type_m5_upper_near pow lg ex k AP K g a b G TG A TA B B9 y FY cl d c f LY C D0 L1 L2 L3) as (z & EZ & NZ).
  exists y, z. split; [exact EY|]. split; [exact EZ|]. now apply (returns z y).
Qed.
End Offset.
End Powers.

(** The straight piece of type 5. *)
Lemma type5_line_returns pow lg ex (g a b c d e f x : f64) : finite c -> B2R (f64_cst Ltol) <= Rabs (B2R c) -> finite d -> finite f -> finite x ->
  B2R x < B2R d -> Rabs (B2R c * B2R x) + Rabs (B2R f) <= bpow radix2 890 ->
  lt64 (Bplus mode_NE (Bmult mode_NE x c) f) (Bplus mode_NE (Bmult mode_NE d c) f) ->
  exists y z, eval_parametric (f64_ops pow lg ex) 5 [g; a; b; c; d; e; f] x = Some y /\
    eval_parametric (f64_ops pow lg ex) (-5) [g; a; b; c; d; e; f] y = Some z /\
    near z (B2R x) (u * (7 * Rabs (B2R x) + 4 * (Rabs (B2R f) / Rabs (B2R c))) + bpow radix2 (-1050)).
Proof.
  intros C TC D F X XD Q LT. set (T := Rabs (B2R c * B2R x) + Rabs (B2R f)) in *.
  assert (B89 : bpow radix2 890 * 1024 = bpow radix2 900) by (change 1024 with (bpow radix2 10); now rewrite <- bpow_plus).
  pose proof (bpow_gt_0 radix2 890) as B8.
  destruct (type5_lower_near pow lg ex g a b c d e f x C D F X XD) as (y & EY & FY & NY); [fold T; lra|]. fold T in NY.
  assert (Ey : y = Bplus mode_NE (Bmult mode_NE x c) f).
  { revert EY. unfold eval_parametric. cbn [nth_error]. cbn [f_ge f_add f_mul f64_ops]. rewrite geb_below by assumption. congruence. }
  pose proof u_pos as U. pose proof tol64_small as TS.
  assert (TI : tiny <= 1) by (unfold tiny; change 1 with (bpow radix2 0); apply bpow_le; lia).
  assert (B1 : 1 <= bpow radix2 890) by (change 1 with (bpow radix2 0); apply bpow_le; lia).
  assert (T0 : 0 <= T) by (unfold T; pose proof (Rabs_pos (B2R c * B2R x)); pose proof (Rabs_pos (B2R f)); lra).
  assert (t0 : 0 < tiny) by apply bpow_gt_0.
  set (dlt := 3 * u * T + tiny) in *.
  assert (D0 : 0 <= dlt) by (unfold dlt; nra).
  assert (YF : Rabs (B2R y - B2R f) <= Rabs (B2R c * B2R x) + dlt).
  { replace (B2R y - B2R f) with ((B2R y - (B2R c * B2R x + B2R f)) + B2R c * B2R x) by ring.
    eapply Rle_trans; [apply Rabs_triang|]. lra. }
  destruct (type_m5_lower_near pow lg ex g a b y FY c d e f) as (z & EZ & FZ & NZ); try assumption.
  { rewrite mult_comm, Ey. exact LT. }
  { eapply Rle_trans; [exact YF|]. unfold dlt. pose proof (Rabs_pos (B2R f)). unfold T in *. nra. }
  exists y, z. split; [exact EY|]. split; [exact EZ|]. split; [exact FZ|].
  assert (NC : B2R c <> 0) by (intros E; rewrite E, Rabs_R0 in TC; lra).
  assert (IC : 0 < / Rabs (B2R c)) by (apply Rinv_0_lt_compat; now apply Rabs_pos_lt).
  assert (IU : / Rabs (B2R c) <= 20000).
  { rewrite <- (Rinv_inv 20000). apply Rinv_le_contravar; [lra|]. destruct cst_tol as (ET & _). rewrite ET in TC. lra. }
  assert (E1 : Rabs ((B2R y - B2R f) / B2R c - B2R x) <= dlt * / Rabs (B2R c)).
  { replace ((B2R y - B2R f) / B2R c - B2R x) with ((B2R y - (B2R c * B2R x + B2R f)) * / B2R c) by (field; exact NC).
    rewrite Rabs_mult, Rabs_inv. apply Rmult_le_compat_r; lra. }
  assert (E2 : Rabs ((B2R y - B2R f) / B2R c) <= Rabs (B2R x) + dlt * / Rabs (B2R c)).
  { replace ((B2R y - B2R f) / B2R c) with (((B2R y - B2R f) / B2R c - B2R x) + B2R x) by ring.
    eapply Rle_trans; [apply Rabs_triang|]. lra. }
  assert (E3 : dlt * / Rabs (B2R c) = 3 * u * (Rabs (B2R x) + Rabs (B2R f) / Rabs (B2R c)) + tiny * / Rabs (B2R c)).
  { unfold dlt, T. rewrite Rabs_mult. field. now apply Rabs_no_R0. }
  assert (E4 : tiny * / Rabs (B2R c) <= bpow radix2 (-1055)).
  { apply Rle_trans with (tiny * bpow radix2 15).
    - apply Rmult_le_compat_l; [lra|]. change (bpow radix2 15) with 32768. lra.
    - unfold tiny. rewrite <- bpow_plus. apply bpow_le. lia. }
  assert (E5 : bpow radix2 (-1050) = 32 * bpow radix2 (-1055)).
  { change 32 with (bpow radix2 5). now rewrite <- bpow_plus. }
  pose proof (bpow_gt_0 radix2 (-1055)).
  replace (B2R z - B2R x) with ((B2R z - (B2R y - B2R f) / B2R c) + ((B2R y - B2R f) / B2R c - B2R x)) by ring.
  eapply Rle_trans; [apply Rabs_triang|]. rewrite E3 in E1, E2. rewrite E5.
  assert (0 <= Rabs (B2R f) / Rabs (B2R c)) by (unfold Rdiv; apply Rmult_le_pos; [apply Rabs_pos|lra]).
  pose proof (Rabs_pos (B2R x)). set (FC := Rabs (B2R f) / Rabs (B2R c)) in *. clearbody FC.
  set (AX := Rabs (B2R x)) in *. clearbody AX. set (tc := tiny * / Rabs (B2R c)) in *. clearbody tc.
  set (v := Rabs ((B2R y - B2R f) / B2R c)) in *. clearbody v.
  assert (U9 : u <= / 100) by lra.
  apply Rle_trans with (3 * u * v + bpow radix2 (-1055) + (3 * u * (AX + FC) + tc)); [lra|].
  assert (HH1 : 3 * u * v <= 3 * u * (AX + (3 * u * (AX + FC) + tc))) by (apply Rmult_le_compat_l; lra).
  assert (HH2 : u * (AX + FC) * (9 * u) <= u * (AX + FC) * 1) by (apply Rmult_le_compat_l; [apply Rmult_le_pos|]; lra).
  assert (HH3 : u * tc <= 1 * bpow radix2 (-1055)).
  { apply Rle_trans with (u * bpow radix2 (-1055)); [apply Rmult_le_compat_l|apply Rmult_le_compat_r]; lra. }
  lra.
Qed.
