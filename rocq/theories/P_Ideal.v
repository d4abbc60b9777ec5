(** A math library with all the properties assumed in C75, C76 and C80 exists: the correctly rounded one. *)
From Coq Require Import ZArith Reals Lia Lra Psatz.
From Flocq Require Import Core Relative IEEE754.BinarySingleNaN.
From Verif Require Import M_Base M_F64 M_Curve M_CurveF64 S_F64 P_S15 P_F64 P_Curve3 P_CurveErr.
Open Scope R_scope.

(** The binary64 number nearest to [z]. *)
Definition round64 (z : R) : f64 :=
  let v := rne z in f64_lit (Ztrunc (scaled_mantissa radix2 (SpecFloat.fexp 53 1024) v)) (cexp radix2 (SpecFloat.fexp 53 1024) v).
Lemma round64_ov z : ov (round64 z) = cap (rne z) /\ is_nan (round64 z) = false.
Proof.
  unfold round64, f64_lit. set (v := rne z). set (m := Ztrunc _). set (e := cexp _ _ _).
  assert (E : F2R (Float radix2 m e) = v).
  { symmetry. unfold m, e, v. apply generic_format_round; [now apply fexp_correct|apply valid_rnd_round_mode]. }
  pose proof (binary_normalize_correct 53 1024 prec53 emax53 mode_NE m e false) as H. rewrite E in H.
  assert (RV : rne v = v).
  { apply round_generic; [apply valid_rnd_round_mode|]. unfold v. apply generic_format_round; [now apply fexp_correct|apply valid_rnd_round_mode]. }
  cbv zeta in H. rewrite RV in H. unfold cap. destruct (Rlt_bool_spec (Rabs v) top) as [L|L].
  - destruct H as (B & F & _). split; [|now apply fin_not_nan]. rewrite ov_fin by exact F. exact B.
  - apply inf_of_overflow in H. rewrite H. split; [|reflexivity]. cbn [ov].
    destruct (Rlt_bool v 0); reflexivity.
Qed.

(** C's pow where C75, C76 and C80 look at it; the rest is arbitrary. *)
Definition ideal_pow (x y : f64) : f64 :=
  match x, y with
  | _, B754_zero _ => f64_lit 1 0
  | B754_nan, _ | _, B754_nan => B754_nan
  | B754_zero _, _ => B754_zero false
  | B754_infinity _, _ => B754_infinity false
  | B754_finite _ _ _ _, B754_infinity _ => B754_nan
  | B754_finite _ _ _ _, B754_finite _ _ _ _ => round64 (Rpower (B2R x) (B2R y))
  end.
Lemma ideal_nan : nan_keeping_pow ideal_pow.
Proof.
  split.
  - intros y H. destruct y as [s| | |]; try reflexivity. now destruct (H s).
  - intros x _. now destruct x.
Qed.
Lemma cap_nonneg v : 0 <= v -> 0 <= cap v.
Proof. intros H. pose proof (cap_mono 0 v H) as C. rewrite (cap_small 0) in C by (rewrite Rabs_R0; apply top_pos). exact C. Qed.
Lemma round64_nonneg z : 0 <= z -> le64 zero (round64 z).
Proof.
  intros H. destruct (round64_ov z) as (E & N). apply le64_ov. split; [reflexivity|]. split; [exact N|]. rewrite E. cbn [ov zero B2R].
  apply cap_nonneg, rne_ge; [apply fmt0|exact H].
Qed.
Lemma round64_mono z z' : z <= z' -> le64 (round64 z) (round64 z').
Proof.
  intros H. destruct (round64_ov z) as (E & N), (round64_ov z') as (E' & N'). apply le64_ov. rewrite E, E'. repeat split; try assumption.
  now apply cap_mono, rne_mono.
Qed.
Lemma finite_nonneg s m e B : le64 zero (B754_finite s m e B : f64) -> 0 < B2R (B754_finite s m e B : f64).
Proof.
  intros H. apply le64_fin in H; [|reflexivity|reflexivity]. change (B2R zero) with 0 in H. destruct s; [|now apply F2R_gt_0].
  exfalso. apply (Rle_not_lt _ _ H). now apply F2R_lt_0.
Qed.
Lemma Rpower_mono x y g : 0 < g -> 0 < x <= y -> Rpower x g <= Rpower y g.
Proof. intros G (X & H). now apply Rle_Rpower_l; lra. Qed.
Lemma ideal_monotone : monotone_pow ideal_pow.
Proof.
  intros g x y (FG & G) X L. destruct (le64_number _ _ L) as (_ & NY). pose proof (le64_trans _ _ _ X L) as Y.
  destruct g as [|?| |sg mg eg BG]; try discriminate FG; [cbn in G; lra|]. set (g := B754_finite sg mg eg BG) in *.
  assert (Z0 : forall z : f64, le64 zero z -> le64 zero (ideal_pow z g)).
  { intros z Z. destruct z as [s|s| |s m e B]; cbn [ideal_pow g].
    - apply le64_refl. discriminate.
    - exact I.
    - contradiction.
    - apply round64_nonneg. left. unfold Rpower. apply exp_pos. }
  split; [now apply Z0|].
  destruct x as [s|s| |s m e B]; [cbn [ideal_pow g]; now apply Z0| | |].
  - destruct s; [contradiction|]. destruct y as [|[|]| |]; try contradiction. cbn. exact I.
  - contradiction.
  - destruct y as [s'|[|]| |s' m' e' B'].
    + exfalso. apply finite_nonneg in X. apply le64_fin in L; [|reflexivity|reflexivity]. now apply (Rle_not_lt _ _ L).
    + contradiction.
    + destruct (round64_ov (Rpower (B2R (B754_finite s m e B : f64)) (B2R g))) as (_ & N). cbn [ideal_pow g].
      destruct (round64 _) as [|[|]| |]; try exact I; discriminate.
    + contradiction.
    + cbn [ideal_pow g]. apply round64_mono. apply Rpower_mono; [exact G|]. split; [now apply finite_nonneg|].
      now apply le64_fin in L.
Qed.

(** Logarithms near 1. *)
Lemma ln_near d : Rabs d <= / 2 -> Rabs (ln (1 + d)) <= 2 * Rabs d.
Proof.
  intros H. apply Rabs_le_inv in H.
  assert (U : ln (1 + d) <= d).
  { rewrite <- (ln_exp d) at 2. destruct (exp_ineq1_le d) as [L|L]; [left; apply ln_increasing; lra|right; now f_equal]. }
  assert (D : d / (1 + d) <= ln (1 + d)).
  { assert (P : 1 + - (d / (1 + d)) <= exp (- (d / (1 + d)))) by apply exp_ineq1_le.
    replace (1 + - (d / (1 + d))) with (/ (1 + d)) in P by (field; lra).
    assert (I : 0 < / (1 + d)) by (apply Rinv_0_lt_compat; lra).
    assert (Q : ln (/ (1 + d)) <= - (d / (1 + d))).
    { rewrite <- (ln_exp (- (d / (1 + d)))). destruct P as [P|P]; [left; now apply ln_increasing|right; now rewrite P at 1]. }
    rewrite ln_Rinv in Q by lra. lra. }
  destruct (Rle_dec 0 d) as [S|S].
  - rewrite (Rabs_pos_eq d) by exact S. assert (0 <= d / (1 + d)) by (apply Rmult_le_pos; [exact S|left; apply Rinv_0_lt_compat; lra]).
    rewrite Rabs_pos_eq by lra. lra.
  - rewrite (Rabs_left d) by lra.
    assert (2 * d <= d / (1 + d)).
    { apply Rmult_le_reg_r with (1 + d); [lra|]. replace (d / (1 + d) * (1 + d)) with d by (field; lra). nra. }
    rewrite Rabs_left1 by lra. lra.
Qed.
(** ln 2 is at least 0.685. *)
Lemma exp_upper x : 0 <= x < 1 -> exp x <= / (1 - x).
Proof.
  intros H. pose proof (exp_ineq1_le (- x)) as P. rewrite exp_Ropp in P. pose proof (exp_pos x) as E.
  rewrite <- (Rinv_inv (exp x)). apply Rinv_le_contravar; lra.
Qed.
Lemma exp_pow x n : exp (INR n * x) = exp x ^ n.
Proof. rewrite Rmult_comm, <- (Rpower_pow n (exp x)) by apply exp_pos. unfold Rpower. now rewrite ln_exp, Rmult_comm. Qed.
Lemma ln2_lower : 685 / 1000 <= ln 2.
Proof.
  assert (E : exp (685 / 1000) <= 2).
  { replace (685 / 1000) with (INR 32 * (685 / 32000)) by (cbn [INR]; lra). rewrite exp_pow.
    pose proof (exp_upper (685 / 32000) ltac:(lra)) as U.
    apply Rle_trans with ((/ (1 - 685 / 32000)) ^ 32); [apply pow_incr; split; [left; apply exp_pos|exact U]|].
    replace (/ (1 - 685 / 32000)) with (6400 / 6263) by field. lra. }
  rewrite <- (ln_exp (685 / 1000)). destruct E as [E|E]; [left; apply ln_increasing; [apply exp_pos|exact E]|right; now rewrite E].
Qed.
Lemma ln_bpow e : ln (bpow radix2 e) = IZR e * ln 2.
Proof. rewrite bpow_exp, ln_exp. reflexivity. Qed.
Lemma round64_near z : Rabs (ln z) <= 700 -> 0 < z -> positive (round64 z) /\ Rabs (ln (B2R (round64 z)) - ln z) <= 2 * u.
Proof.
  intros L P. pose proof ln2_lower as L2. pose proof u_pos as U. apply Rabs_le_inv in L.
  assert (B1 : bpow radix2 (-1022) <= z).
  { apply Rnot_lt_le. intros H. apply ln_increasing in H; [|exact P]. rewrite ln_bpow in H. lra. }
  assert (B2 : z <= bpow radix2 1022).
  { apply Rnot_lt_le. intros H. apply ln_increasing in H; [|apply bpow_gt_0]. rewrite ln_bpow in H. lra. }
  pose proof (rne_rel z) as E. rewrite (Rabs_pos_eq z) in E by lra. specialize (E B1).
  assert (V : 0 < rne z < top).
  { split.
    - apply Rlt_le_trans with (bpow radix2 (-1022)); [apply bpow_gt_0|]. apply rne_ge; [|exact B1]. apply generic_format_bpow. vm_compute. discriminate.
    - apply Rle_lt_trans with (bpow radix2 1022); [|apply bpow_lt; lia]. apply rne_le; [|exact B2]. apply generic_format_bpow. vm_compute. discriminate. }
  destruct (round64_ov z) as (O & N). rewrite cap_small in O by (rewrite Rabs_pos_eq; lra).
  assert (F : is_finite (round64 z) = true).
  { destruct (is_finite (round64 z)) eqn:F; [reflexivity|]. destruct (fin_cases _ N F) as [H|H]; rewrite H in O; cbn [ov] in O; pose proof top_pos; lra. }
  rewrite ov_fin in O by exact F. split; [split; [exact F|lra]|]. rewrite O.
  set (d := (rne z - z) / z). assert (D : Rabs d <= u).
  { unfold d, Rdiv. rewrite Rabs_mult, Rabs_inv, (Rabs_pos_eq z) by lra. apply Rmult_le_reg_r with z; [exact P|].
    rewrite Rmult_assoc, Rinv_l by lra. lra. }
  replace (rne z) with (z * (1 + d)) by (unfold d; field; lra). pose proof (Rabs_le_inv _ _ D).
  rewrite ln_mult by lra. replace (ln z + ln (1 + d) - ln z) with (ln (1 + d)) by ring.
  eapply Rle_trans; [apply ln_near; lra|]. lra.
Qed.
Lemma ideal_accurate : accurate_pow (2 * u) ideal_pow.
Proof.
  intros x y (FX & X) FY L. destruct x as [|?| |s m e B]; try discriminate FX; [cbn in X; lra|]. set (x := B754_finite s m e B) in *.
  destruct y as [sy|?| |sy my ey BY]; try discriminate FY.
  - replace (ideal_pow x (B754_zero sy)) with (f64_cst L1) by reflexivity. destruct cst1 as (E & F). split; [split; [exact F|lra]|].
    rewrite E, ln_1. change (B2R (B754_zero sy)) with 0. rewrite Rmult_0_l, Rminus_0_r, Rabs_R0. pose proof u_pos. lra.
  - set (y := B754_finite sy my ey BY) in *. change (ideal_pow x y) with (round64 (Rpower (B2R x) (B2R y))).
    assert (E : ln (Rpower (B2R x) (B2R y)) = B2R y * ln (B2R x)) by (unfold Rpower; apply ln_exp).
    rewrite <- E. rewrite <- E in L. apply round64_near; [exact L|]. unfold Rpower. apply exp_pos.
Qed.
