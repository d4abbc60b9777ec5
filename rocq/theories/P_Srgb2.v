(** Accuracy of the computed sRGB curve. *)
From Coq Require Import ZArith Reals Lia Lra Psatz.
From Flocq Require Import Core IEEE754.BinarySingleNaN.
From Verif Require Import M_Base M_F64 M_Curve M_CurveF64 S_F64 S_Srgb P_S15 P_F64 P_Curve3 P_CurveErr P_Ideal P_CurveErr2 P_CurveErr3 P_CurveErr4 P_Srgb.
Open Scope R_scope.

Lemma ln_below x : 0 < x -> ln x <= x - 1.
Proof. intros X. pose proof (exp_ineq1_le (ln x)) as H. rewrite exp_ln in H by exact X. lra. Qed.
Lemma ln_quot x y : 0 < x -> 0 < y -> ln (x / y) = ln x - ln y.
Proof. intros X Y. unfold Rdiv. rewrite ln_mult, ln_Rinv; [lra|assumption..|now apply Rinv_0_lt_compat]. Qed.
(** Sharper than [ln_close]. *)
Lemma ln_tight x y s : 0 < y -> 0 <= s -> s <= y / 2000 -> Rabs (x - y) <= s -> 0 < x /\ Rabs (ln x - ln y) <= 1001 / 1000 * (s / y).
Proof.
  intros Y S S' H. apply Rabs_le_inv in H. assert (X : 0 < x) by lra. split; [exact X|].
  assert (Q : 0 <= s / y) by (apply Rmult_le_pos; [exact S|left; now apply Rinv_0_lt_compat]).
  apply Rabs_le. split.
  - assert (L : ln y - ln x <= y / x - 1) by (rewrite <- ln_quot by assumption; apply ln_below; now apply Rdiv_lt_0_compat).
    assert (y / x - 1 <= 1001 / 1000 * (s / y)); [|lra].
    replace (y / x - 1) with ((y - x) / x) by (field; lra).
    apply Rmult_le_reg_r with x; [exact X|]. replace ((y - x) / x * x) with (y - x) by (field; lra).
    apply Rle_trans with s; [lra|]. replace (1001 / 1000 * (s / y) * x) with (s * (1001 / 1000 * x / y)) by (field; lra).
    rewrite <- (Rmult_1_r s) at 1. apply Rmult_le_compat_l; [exact S|]. apply Rmult_le_reg_r with y; [exact Y|].
    replace (1001 / 1000 * x / y * y) with (1001 / 1000 * x) by (field; lra). lra.
  - assert (L : ln x - ln y <= x / y - 1) by (rewrite <- ln_quot by assumption; apply ln_below; now apply Rdiv_lt_0_compat).
    assert (x / y - 1 <= s / y); [|lra]. replace (x / y - 1) with ((x - y) / y) by (field; lra).
    apply Rmult_le_compat_r; [left; now apply Rinv_0_lt_compat|lra].
Qed.
Lemma exp_tight t : 0 <= t <= / 1200 -> exp t - 1 <= 1001 / 1000 * t.
Proof.
  intros H. pose proof (exp_upper t ltac:(lra)) as U. apply Rle_trans with (/ (1 - t) - 1); [lra|].
  replace (/ (1 - t) - 1) with (t * / (1 - t)) by (field; lra). rewrite Rmult_comm. apply Rmult_le_compat_r; [lra|].
  apply Rmult_le_reg_r with (1 - t); [lra|]. rewrite Rinv_l by lra. lra.
Qed.
(** If [ln z] is within B of [ln y], then z is within 1.001 B of y, relatively. *)
Lemma rel_tight y z B : 0 < y -> 0 < z -> B <= / 1200 -> Rabs (ln z - ln y) <= B -> Rabs (z - y) <= 1001 / 1000 * B * y.
Proof.
  intros Y Z HB H. assert (B0 : 0 <= B) by (eapply Rle_trans; [apply Rabs_pos|exact H]).
  eapply Rle_trans; [apply (rel_of_ln y z B Y Z H)|]. apply Rmult_le_compat_r; [lra|]. apply exp_tight. lra.
Qed.

Notation "'P0' r" := ((r + 55 / 1000) / (1055 / 1000)) (at level 9, r at level 9).
Notation D0 := (4045 / 100000).
Lemma ln_break_upper : 24 / 10 * ln (P0 D0) <= ln (3130809 / 1000000000).
Proof.
  assert (H : ln ((P0 D0) ^ 12) <= ln ((3130809 / 1000000000) ^ 5)) by (apply ln_mono; [apply pow_lt; lra|lra]).
  rewrite !ln_pow in H by lra. cbn [INR] in H. lra.
Qed.
Lemma break_value : 31308061 / 10000000000 <= Rpower (P0 D0) (24 / 10) <= 3130809 / 1000000000.
Proof.
  unfold Rpower. pose proof ln_break_upper as U. pose proof ln_break as L. pose proof ln_step as T.
  assert (ln (9047393 / 100000000) <= ln (P0 D0)) by (apply ln_mono; lra).
  split.
  - rewrite <- (exp_ln (31308061 / 10000000000)) by lra. apply exp_le. lra.
  - rewrite <- (exp_ln (3130809 / 1000000000)) by lra. apply exp_le. lra.
Qed.
(** The two pieces of sRGB, close to the break. *)
Lemma pieces_meet r t : 0 <= t <= / 100000 -> Rabs (r - D0) <= t ->
  Rabs (Rpower (P0 r) (24 / 10) - r / (1292 / 100)) <= 17 / 100 * t + 5 / 1000000000.
Proof.
  intros T H. destruct (ln_tight (P0 r) (P0 D0) (t / (1055 / 1000)) ltac:(lra) ltac:(lra) ltac:(lra)) as (P & L).
  { replace (P0 r - P0 D0) with ((r - D0) / (1055 / 1000)) by field. unfold Rdiv at 1. rewrite Rabs_mult, (Rabs_pos_eq (/ (1055 / 1000))) by lra.
    apply Rmult_le_compat_r; lra. }
  pose proof break_value as BV.
  assert (E : Rabs (Rpower (P0 r) (24 / 10) - Rpower (P0 D0) (24 / 10)) <= 1001 / 1000 * (26 * t) * Rpower (P0 D0) (24 / 10)).
  { apply rel_tight; [lra|apply exp_pos|lra|]. unfold Rpower. rewrite !ln_exp.
    replace (24 / 10 * ln (P0 r) - 24 / 10 * ln (P0 D0)) with (24 / 10 * (ln (P0 r) - ln (P0 D0))) by ring.
    rewrite Rabs_mult, (Rabs_pos_eq (24 / 10)) by lra. lra. }
  assert (1001 / 1000 * (26 * t) * Rpower (P0 D0) (24 / 10) <= 9 / 100 * t) by nra.
  apply Rabs_le_inv in E. apply Rabs_le_inv in H. apply Rabs_le. lra.
Qed.

Section Accuracy.
Context (pow : f64 -> f64 -> f64) (lg ex : f64 -> f64) (AP : accurate_pow (2 * ulp_half) pow).
Context (g a b c d : f64) (t : R) (TT : 0 <= t <= / 100000) (SP : srgb_params t g a b c d).
Notation O := (f64_ops pow lg ex).
Lemma power_piece r : finite r -> B2R d <= B2R r <= 1 -> exists y, eval_parametric O 4 [g; a; b; c; d] r = Some y /\ finite y /\
  Rabs (B2R y - Rpower (P0 (B2R r)) (24 / 10)) <= 6 * t + / 1000000000.
Proof.
  destruct SP as (Hg & Ha & Hb & Hc & Hd). apply near_range in Hg, Ha, Hb, Hc, Hd.
  destruct Hg as (G & Rg), Ha as (A & Ra), Hb as (B & Rb), Hc as (C & Rc), Hd as (D & Rd). pose proof u_tiny as U.
  assert (TL : B2R (f64_cst Ltol) < 2 / 10000) by (rewrite (proj1 cst_tol); lra). pose proof tol64_small as TS.
  intros R RR. set (r' := B2R r) in *. set (p := P0 r') in *.
  assert (PB : 904 / 10000 <= p <= 1) by (unfold p; lra).
  assert (PP : Rabs (B2R a * r' + B2R b - p) <= 2 * t).
  { replace (B2R a * r' + B2R b - p) with ((B2R a - 1000 / 1055) * r' + (B2R b - 55 / 1055)) by (unfold p; field).
    eapply Rle_trans; [apply Rabs_triang|]. rewrite Rabs_mult, (Rabs_pos_eq r') by lra.
    assert (Rabs (B2R a - 1000 / 1055) <= t) by (apply Rabs_le; lra). assert (Rabs (B2R b - 55 / 1055) <= t) by (apply Rabs_le; lra).
    assert (Rabs (B2R a - 1000 / 1055) * r' <= t * 1) by (apply Rmult_le_compat; try lra; apply Rabs_pos). lra. }
  set (P := B2R a * r' + B2R b) in *. assert (PP' := Rabs_le_inv _ _ PP).
  assert (LP : Rabs (ln P) <= 5 / 2).
  { apply Rabs_le. split; [eapply Rle_trans; [apply ln_009|apply ln_mono; lra]|].
    apply ln_le_exp; [lra|]. pose proof (exp_ineq1_le (5 / 2)). lra. }
  destruct (raise_err a b A ltac:(lra) B ltac:(lra) r R ltac:(fold r'; lra)) as ((FE & PE) & EE); [fold r' P; lra|fold r' P; lra|].
  fold r' P in EE. set (E := Bplus mode_NE (Bmult mode_NE a r) b) in *.
  assert (ED : Rabs (B2R E - p) <= 2 * t + 5 * u).
  { replace (B2R E - p) with ((B2R E - P) + (P - p)) by ring. eapply Rle_trans; [apply Rabs_triang|]. assert (4 * u * P <= 5 * u) by nra. lra. }
  destruct (ln_tight (B2R E) p (2 * t + 5 * u) ltac:(lra) ltac:(lra) ltac:(lra) ED) as (_ & LE).
  set (s := (2 * t + 5 * u) / p) in *.
  assert (SB : 0 <= s <= / 4000).
  { unfold s. split; [apply Rmult_le_pos; [lra|left; apply Rinv_0_lt_compat; lra]|]. apply Rmult_le_reg_r with p; [lra|].
    unfold Rdiv. rewrite Rmult_assoc, Rinv_l by lra. lra. }
  assert (SP' : s * p = 2 * t + 5 * u) by (unfold s; field; lra).
  assert (LN : - (5 / 2) <= ln p <= 0).
  { split; [eapply Rle_trans; [apply ln_009|apply ln_mono; lra]|rewrite <- ln_1; apply ln_mono; lra]. }
  assert (LNP : - ln p * p <= 1 - p).
  { pose proof (ln_below (/ p) ltac:(apply Rinv_0_lt_compat; lra)) as H. rewrite ln_Rinv in H by lra.
    apply Rle_trans with ((/ p - 1) * p); [apply Rmult_le_compat_r; lra|]. rewrite Rmult_minus_distr_r, Rinv_l by lra. lra. }
  apply Rabs_le_inv in LE.
  destruct (AP E g (conj FE PE) G) as ((FY & PY) & EY).
  { rewrite Rabs_mult, (Rabs_pos_eq (B2R g)) by lra. assert (Rabs (ln (B2R E)) <= 3) by (apply Rabs_le; lra). pose proof (Rabs_pos (ln (B2R E))). nra. }
  exists (pow E g). split; [|split; [exact FY|]].
  - assert (LD : le64 d r) by (apply le64_fin; [assumption..|fold r'; lra]). ev. rewrite (proj2 (geb_iff r d) LD). fold E. rewrite pos_ltb by (split; assumption). reflexivity.
  - assert (GL : Rabs (B2R g * ln (B2R E) - 24 / 10 * ln p) <= t * (- ln p + / 1000) + 241 / 100 * s).
    { replace (B2R g * ln (B2R E) - 24 / 10 * ln p) with ((B2R g - 24 / 10) * ln (B2R E) + 24 / 10 * (ln (B2R E) - ln p)) by ring.
      eapply Rle_trans; [apply Rabs_triang|]. rewrite !Rabs_mult, (Rabs_pos_eq (24 / 10)) by lra.
      assert (Rabs (B2R g - 24 / 10) <= t) by (apply Rabs_le; lra). assert (Rabs (ln (B2R E)) <= - ln p + / 1000) by (apply Rabs_le; lra).
      assert (Rabs (ln (B2R E) - ln p) <= 1001 / 1000 * s) by (apply Rabs_le; lra).
      apply Rplus_le_compat; [apply Rmult_le_compat; try assumption; apply Rabs_pos|]. lra. }
    set (M := t * (- ln p + / 1000) + 241 / 100 * s + 2 * u).
    assert (M1 : Rabs (ln (B2R (pow E g)) - 24 / 10 * ln p) <= M).
    { replace (ln (B2R (pow E g)) - 24 / 10 * ln p) with ((ln (B2R (pow E g)) - B2R g * ln (B2R E)) + (B2R g * ln (B2R E) - 24 / 10 * ln p)) by ring.
      eapply Rle_trans; [apply Rabs_triang|]. unfold M. lra. }
    assert (M2 : M <= / 1200).
    { unfold M. assert (t * (- ln p + / 1000) <= t * 3) by (apply Rmult_le_compat_l; lra).
      assert (s <= / 4500); [|lra]. apply Rmult_le_reg_r with p; [lra|]. rewrite SP'. lra. }
    assert (Y0 : Rpower p (24 / 10) <= p).
    { unfold Rpower. rewrite <- (exp_ln p) at 2 by lra. apply exp_le. lra. }
    pose proof (exp_pos (24 / 10 * ln p)) as YP. change (exp (24 / 10 * ln p)) with (Rpower p (24 / 10)) in YP.
    eapply Rle_trans; [apply (rel_tight (Rpower p (24 / 10)) (B2R (pow E g)) M YP PY M2); unfold Rpower; rewrite ln_exp; exact M1|].
    assert (M0 : 0 <= M) by (eapply Rle_trans; [apply Rabs_pos|exact M1]).
    apply Rle_trans with (1001 / 1000 * (M * p)).
    { rewrite Rmult_assoc. apply Rmult_le_compat_l; [lra|]. now apply Rmult_le_compat_l. }
    assert (MP : M * p <= t * (1 + / 1000) + 241 / 100 * (2 * t + 5 * u) + 2 * u).
    { unfold M. replace ((t * (- ln p + / 1000) + 241 / 100 * s + 2 * u) * p) with (t * (- ln p * p + / 1000 * p) + 241 / 100 * (s * p) + 2 * u * p) by ring.
      rewrite SP'. assert (t * (- ln p * p + / 1000 * p) <= t * (1 + / 1000)) by (apply Rmult_le_compat_l; lra).
      assert (2 * u * p <= 2 * u) by nra. lra. }
    lra.
Qed.
Lemma linear_piece r : finite r -> 0 <= B2R r < B2R d -> exists y, eval_parametric O 4 [g; a; b; c; d] r = Some y /\ finite y /\
  Rabs (B2R y - B2R r / (1292 / 100)) <= t + / 1000000000.
Proof.
  destruct SP as (Hg & Ha & Hb & Hc & Hd). apply near_range in Hg, Ha, Hb, Hc, Hd.
  destruct Hc as (C & Rc), Hd as (D & Rd). pose proof u_tiny as U.
  intros R RR. set (r' := B2R r) in *.
  assert (RC : 0 <= r' * B2R c <= 1) by nra.
  destruct (op_fin _ _ (ov_mult r c R C)) as (FM & EM).
  { fold r'. rewrite Rabs_pos_eq by lra. apply Rle_trans with (bpow radix2 10); [change (bpow radix2 10) with 1024; lra|apply bpow_le; lia]. }
  fold r' in EM. rewrite (Rabs_pos_eq (r' * B2R c)) in EM by lra.
  assert (eta <= / 1000000000000000).
  { apply Rle_trans with (bpow radix2 (-60)); [apply bpow_le; lia|]. change (bpow radix2 (-60)) with (/ 1152921504606846976). apply Rinv_le_contravar; lra. }
  exists (Bmult mode_NE r c). split; [|split; [exact FM|]].
  - ev. assert (N : f64_geb r d = false).
    { apply Bool.not_true_iff_false. rewrite geb_iff, le64_fin by assumption. fold r'. lra. }
    rewrite N. reflexivity.
  - apply Rabs_le_inv in EM. apply Rabs_le. assert (- t <= r' * B2R c - r' / (1292 / 100) <= t) by nra. nra.
Qed.
Lemma srgb_accuracy r : finite r -> 0 <= B2R r <= 1 -> exists y, eval_parametric O 4 [g; a; b; c; d] r = Some y /\ finite y /\
  Rabs (B2R y - srgb (B2R r)) <= 7 * t + / 100000000.
Proof.
  intros R RR. assert (DB : Rabs (B2R d - D0) <= t) by apply SP. apply Rabs_le_inv in DB. unfold srgb.
  destruct (Rle_dec (B2R d) (B2R r)) as [L|L].
  - destruct (power_piece r R ltac:(lra)) as (y & E & F & H). exists y. split; [exact E|]. split; [exact F|].
    destruct (Rlt_dec (B2R r) D0) as [X|X]; [|lra].
    pose proof (pieces_meet (B2R r) t TT ltac:(apply Rabs_le; lra)) as M. apply Rabs_le_inv in M. apply Rabs_le_inv in H. apply Rabs_le. lra.
  - destruct (linear_piece r R ltac:(lra)) as (y & E & F & H). exists y. split; [exact E|]. split; [exact F|].
    destruct (Rlt_dec (B2R r) D0) as [X|X]; [lra|].
    pose proof (pieces_meet (B2R r) t TT ltac:(apply Rabs_le; lra)) as M. apply Rabs_le_inv in M. apply Rabs_le_inv in H. apply Rabs_le. lra.
Qed.
End Accuracy.
