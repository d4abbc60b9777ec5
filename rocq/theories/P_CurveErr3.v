(** Error bounds of the affine curves (types 2 and 4) at binary64. *)
From Coq Require Import ZArith Reals Lia Lra Psatz.
From Flocq Require Import Core Relative IEEE754.BinarySingleNaN.
From Verif Require Import M_Base M_F64 M_Curve M_CurveF64 S_F64 P_S15 P_F64 P_Curve3 P_CurveErr P_Ideal P_CurveErr2.
Open Scope R_scope.

(** Half the smallest positive number. *)
Notation eta := (bpow radix2 (-1075)).
Lemma Some_inj {T} (x y : T) : Some x = Some y -> x = y.
Proof. congruence. Qed.
Lemma eta_pos : 0 < eta. Proof. apply bpow_gt_0. Qed.
Lemma rne_err v : Rabs (rne v - v) <= u * Rabs v + eta.
Proof.
  rewrite fexp_eq.
  destruct (error_N_FLT radix2 (-1074) 53 eq_refl (fun z => negb (Z.even z)) v) as (d & h & D & H & _ & E).
  change (Znearest (fun z => negb (Z.even z))) with ZnearestE in E. cbn [round_mode]. 
  change (SpecFloat.emin 53 1024) with (-1074)%Z. rewrite E.
  replace (v * (1 + d) + h - v) with (v * d + h) by ring. eapply Rle_trans; [apply Rabs_triang|]. rewrite Rabs_mult.
  assert (D' : Rabs d <= u).
  { eapply Rle_trans; [exact D|]. unfold ulp_half. change (bpow radix2 (- (53) + 1)) with (/ 4503599627370496). change (2 ^ 53)%Z with 9007199254740992%Z. lra. }
  assert (H' : Rabs h <= eta).
  { eapply Rle_trans; [exact H|]. right. change (-1075)%Z with (-1 + -1074)%Z. rewrite bpow_plus. reflexivity. }
  pose proof (Rabs_pos v). nra.
Qed.
Notation huge := (bpow radix2 1000).
Lemma op_fin (z : f64) v : ov z = cap (rne v) /\ is_nan z = false -> Rabs v <= huge ->
  finite z /\ Rabs (B2R z - v) <= u * Rabs v + eta.
Proof.
  intros (O & N) H. assert (L : Rabs (rne v) <= huge).
  { apply Rabs_le_inv in H. apply Rabs_le. assert (fmt huge) by (apply generic_format_bpow; vm_compute; discriminate).
    split; [apply rne_ge; [now apply generic_format_opp|lra]|apply rne_le; [assumption|lra]]. }
  assert (L' : Rabs (rne v) < top) by (eapply Rle_lt_trans; [exact L|apply bpow_lt; lia]).
  rewrite cap_small in O by exact L'. assert (F : is_finite z = true).
  { destruct (is_finite z) eqn:F; [reflexivity|]. apply Rabs_def2 in L'. destruct (fin_cases _ N F) as [E|E]; rewrite E in O; cbn [ov] in O; lra. }
  split; [exact F|]. rewrite ov_fin in O by exact F. rewrite O. apply rne_err.
Qed.

Lemma huge_600 P : 0 < P -> Rabs (ln P) <= 600 -> bpow radix2 (-900) <= P <= bpow radix2 900.
Proof.
  intros H L. apply Rabs_le_inv in L. pose proof ln2_lower.
  split; apply Rnot_lt_le; intros C; apply ln_increasing in C; try apply bpow_gt_0; try exact H; rewrite ln_bpow in C; lra.
Qed.
Lemma eta_small : eta <= u * bpow radix2 (-950).
Proof.
  replace u with (bpow radix2 (-53)) by (unfold ulp_half; reflexivity). rewrite <- bpow_plus. apply bpow_le. lia.
Qed.
Lemma eta_8 P : bpow radix2 (-1000) <= P -> 8 * eta <= u * P.
Proof.
  intros H. pose proof u_pos. assert (8 * eta = bpow radix2 (-53) * bpow radix2 (-1019)).
  { change 8 with (bpow radix2 3). rewrite <- !bpow_plus. reflexivity. }
  replace u with (bpow radix2 (-53)) in * by (unfold ulp_half; reflexivity).
  rewrite H1. apply Rmult_le_compat_l; [lra|]. eapply Rle_trans; [|exact H]. apply bpow_le. lia.
Qed.
(** Nearby numbers have nearby logarithms. *)
Lemma ln_close x y t : 0 < y -> 0 <= t <= / 2 -> Rabs (x - y) <= t * y -> 0 < x /\ Rabs (ln x - ln y) <= 2 * t.
Proof.
  intros Y T H. set (d := (x - y) / y). assert (D : Rabs d <= t).
  { unfold d, Rdiv. rewrite Rabs_mult, Rabs_inv, (Rabs_pos_eq y) by lra. apply Rmult_le_reg_r with y; [exact Y|].
    rewrite Rmult_assoc, Rinv_l by lra. lra. }
  assert (E : x = y * (1 + d)) by (unfold d; field; lra). pose proof (Rabs_le_inv _ _ D).
  split; [rewrite E; apply Rmult_lt_0_compat; lra|]. rewrite E, ln_mult by lra.
  replace (ln y + ln (1 + d) - ln y) with (ln (1 + d)) by ring. eapply Rle_trans; [apply ln_near; lra|lra].
Qed.

Section Affine.
Context (pow : f64 -> f64 -> f64) (k : R) (AP : accurate_pow k pow).
Context (g a b : f64) (G : finite g) (TG : B2R (f64_cst Ltol) <= B2R g <= 10000)
  (A : finite a) (TA : B2R (f64_cst Ltol) <= B2R a <= 10000) (B : finite b) (B0 : 0 <= B2R b) (K : k <= B2R g) (K1 : k <= / 100) (KG : k <= B2R g / 100).
Notation raise r := (Bplus mode_NE (Bmult mode_NE a r) b).
Notation lower q := (Bdiv mode_NE (Bminus mode_NE q b) a).
(** The bound on the error of the logarithm that the two powers add. *)
Definition log_err (P : R) : R := (1 + (1 + u) / B2R g) * k + u * (Rabs (ln P) + 1).

Lemma raise_err r : finite r -> 0 <= B2R r -> let P := B2R a * B2R r + B2R b in 0 < P -> Rabs (ln P) <= 600 ->
  positive (raise r) /\ Rabs (B2R (raise r) - P) <= 4 * u * P.
Proof.
  intros R R0 P P0 LP. destruct (huge_600 P P0 LP) as (PL & PU). pose proof u_pos as U. pose proof eta_small as ES. pose proof eta_pos as EP.
  pose proof tol64_small as TS.
  assert (AR : 0 <= B2R a * B2R r) by (apply Rmult_le_pos; lra).
  assert (EP2 : 8 * eta <= u * P). { apply eta_8. eapply Rle_trans; [|exact PL]. apply bpow_le. lia. }
  assert (H900 : bpow radix2 900 * 8 <= huge).
  { change 8 with (bpow radix2 3). rewrite <- bpow_plus. apply bpow_le. lia. }
  destruct (op_fin _ _ (ov_mult a r A R)) as (F1 & E1); [rewrite Rabs_pos_eq; unfold P in *; lra|].
  rewrite (Rabs_pos_eq (B2R a * B2R r)) in E1 by exact AR. set (X := B2R (Bmult mode_NE a r)) in *.
  apply Rabs_le_inv in E1.
  assert (uP : u * (B2R a * B2R r) <= u * P) by (apply Rmult_le_compat_l; unfold P; lra).
  assert (XB : Rabs (X + B2R b) <= (1 + 2 * u) * P). { apply Rabs_le. unfold P in *. lra. }
  destruct (op_fin _ _ (ov_plus _ _ F1 B)) as (F2 & E2).
  { fold X. eapply Rle_trans; [exact XB|]. assert (2 * u * P <= P) by nra. lra. }
  fold X in E2. set (E := B2R (raise r)) in *.
  assert (EE : Rabs (E - P) <= 4 * u * P).
  { replace (E - P) with ((E - (X + B2R b)) + (X - B2R a * B2R r)) by (unfold P; ring). eapply Rle_trans; [apply Rabs_triang|].
    assert (Rabs (X - B2R a * B2R r) <= u * P + eta) by (apply Rabs_le; lra).
    assert (u * Rabs (X + B2R b) <= u * ((1 + 2 * u) * P)) by (apply Rmult_le_compat_l; lra).
    assert (u * (u * P) <= / 1000 * (u * P)) by (apply Rmult_le_compat_r; [|lra]; apply Rmult_le_pos; lra). nra. }
  split; [|exact EE]. split; [exact F2|]. apply Rabs_le_inv in EE. fold E. nra.
Qed.

Lemma lower_err r q t : finite r -> 0 <= B2R r -> let P := B2R a * B2R r + B2R b in 0 < P -> Rabs (ln P) <= 600 ->
  finite q -> Rabs (B2R q - P) <= t * P -> t <= / 2 ->
  finite (lower q) /\ Rabs (B2R (lower q) - B2R r) <= (t + 4 * u) * (B2R r + B2R b / B2R a).
Proof.
  intros R R0 P P0 LP Q QE T. destruct (huge_600 P P0 LP) as (PL & PU). pose proof u_pos as U. pose proof eta_pos as EP.
  pose proof tol64_small as TS. set (a' := B2R a) in *. assert (A0 : 0 < a') by lra.
  assert (T0 : 0 <= t). { apply Rmult_le_reg_r with P; [exact P0|]. rewrite Rmult_0_l. eapply Rle_trans; [apply Rabs_pos|exact QE]. }
  assert (AR : 0 <= a' * B2R r) by (apply Rmult_le_pos; lra).
  assert (EP2 : 8 * eta <= u * P). { apply eta_8. eapply Rle_trans; [|exact PL]. apply bpow_le. lia. }
  assert (H900 : bpow radix2 900 * bpow radix2 20 <= huge) by (rewrite <- bpow_plus; apply bpow_le; lia).
  change (bpow radix2 20) with 1048576 in H900.
  assert (D : Rabs (B2R q - B2R b) <= (1 + t) * P).
  { replace (B2R q - B2R b) with ((B2R q - P) + a' * B2R r) by (unfold P; ring). eapply Rle_trans; [apply Rabs_triang|].
    rewrite (Rabs_pos_eq (a' * B2R r)) by exact AR. unfold P in *. lra. }
  assert (tP : t * P <= / 2 * P) by (apply Rmult_le_compat_r; lra).
  assert (uP : u * P <= / 1000 * P) by (apply Rmult_le_compat_r; lra).
  destruct (op_fin _ _ (ov_minus q b Q B)) as (F1 & E1); [eapply Rle_trans; [exact D|]; lra|].
  set (N := B2R (Bminus mode_NE q b)) in *.
  assert (uD : u * Rabs (B2R q - B2R b) <= u * ((1 + / 2) * P)) by (apply Rmult_le_compat_l; [lra|]; eapply Rle_trans; [exact D|]; lra).
  assert (NE : Rabs (N - a' * B2R r) <= (t + 7 / 4 * u) * P).
  { replace (N - a' * B2R r) with ((N - (B2R q - B2R b)) + (B2R q - P)) by (unfold P; ring). eapply Rle_trans; [apply Rabs_triang|]. lra. }
  assert (NB : Rabs N <= 8 / 5 * P).
  { replace N with ((N - a' * B2R r) + a' * B2R r) by ring. eapply Rle_trans; [apply Rabs_triang|]. rewrite (Rabs_pos_eq (a' * B2R r)) by exact AR.
    assert (a' * B2R r <= P) by (unfold P; lra). lra. }
  pose proof (Rinv_0_lt_compat _ A0) as I0.
  assert (IU : / a' <= 20000). { rewrite <- (Rinv_inv 20000). apply Rinv_le_contravar; [lra|]. destruct cst_tol as (ET & _). rewrite ET in TA. lra. }
  assert (IL : / 10000 <= / a') by (apply Rinv_le_contravar; lra).
  assert (NA : Rabs (N / a') <= 8 / 5 * (P / a')).
  { unfold Rdiv. rewrite Rabs_mult, (Rabs_pos_eq (/ a')) by lra. rewrite <- Rmult_assoc. apply Rmult_le_compat_r; lra. }
  assert (PA : P / a' <= P * 20000) by (apply Rmult_le_compat_l; lra).
  destruct (op_fin _ _ (ov_div _ _ F1 A ltac:(fold a'; lra))) as (F2 & E2).
  { fold N a'. lra. }
  fold N a' in E2. split; [exact F2|]. set (z := B2R (lower q)) in *.
  assert (EA : 8 * eta <= u * (P / a')).
  { apply eta_8. apply Rle_trans with (P * / 10000); [|apply Rmult_le_compat_l; lra].
    apply Rle_trans with (bpow radix2 (-900) * / 10000); [|apply Rmult_le_compat_r; lra].
    apply Rle_trans with (bpow radix2 (-900) * bpow radix2 (-14)); [rewrite <- bpow_plus; apply bpow_le; lia|].
    apply Rmult_le_compat_l; [apply bpow_ge_0|]. change (bpow radix2 (-14)) with (/ 16384). apply Rinv_le_contravar; lra. }
  assert (uN : u * Rabs (N / a') <= u * (8 / 5 * (P / a'))) by (apply Rmult_le_compat_l; lra).
  assert (ND : Rabs (N / a' - B2R r) <= (t + 7 / 4 * u) * (P / a')).
  { replace (N / a' - B2R r) with ((N - a' * B2R r) * / a') by (field; lra). rewrite Rabs_mult, (Rabs_pos_eq (/ a')) by lra.
    unfold Rdiv. rewrite <- Rmult_assoc. apply Rmult_le_compat_r; lra. }
  replace (B2R r + B2R b / a') with (P / a') by (unfold P; field; lra).
  replace (z - B2R r) with ((z - N / a') + (N / a' - B2R r)) by ring. eapply Rle_trans; [apply Rabs_triang|]. lra.
Qed.

Lemma pow_there_back x : positive x -> Rabs (ln (B2R x)) <= 690 -> B2R g * Rabs (ln (B2R x)) <= 690 ->
  positive (pow x g) /\ positive (pow (pow x g) (Bdiv mode_NE (f64_cst L1) g)) /\
  Rabs (ln (B2R (pow (pow x g) (Bdiv mode_NE (f64_cst L1) g))) - ln (B2R x)) <= (1 + (1 + u) / B2R g) * k + u * Rabs (ln (B2R x)).
Proof.
  intros X L1' L2. pose proof tol64_range.
  destruct (type1_rev_fwd pow (fun x => x) (fun x => x) k AP g x G TG X L1' L2 K) as (y & z & E1 & E2 & Y & Z & H').
  unfold eval_parametric in E1, E2. cbn [nth_error f64_ops f_lit f_neg f_abs f_add f_sub f_mul f_div f_lt f_ge f_max f_pow f_log10 f_exp] in E1, E2.
  rewrite cst0, pos_not_ltb in E1 by assumption. apply Some_inj in E1. rewrite E1.
  rewrite cst0, pos_not_ltb, tol_not_ltb in E2 by (assumption || (split; [exact G|lra]) || lra). apply Some_inj in E2. rewrite E2. exact (conj Y (conj Z H')).
Qed.

(** Through both. *)
Lemma affine_err r : finite r -> 0 <= B2R r -> let P := B2R a * B2R r + B2R b in 0 < P -> Rabs (ln P) <= 600 -> B2R g * Rabs (ln P) <= 600 ->
  let y := pow (raise r) g in let z := lower (pow y (Bdiv mode_NE (f64_cst L1) g)) in
  positive (raise r) /\ positive y /\ finite z /\
  Rabs (B2R z - B2R r) <= (2 * (exp (log_err P) - 1) + 8 * u) * (B2R r + B2R b / B2R a).
Proof.
  intros R R0 P P0 LP GP y z. destruct (raise_err r R R0 P0 LP) as (PE & EE). fold P in EE. set (E := B2R (raise r)) in *.
  pose proof u_pos as U. pose proof (k_pos pow k AP) as K0. pose proof tol64_range as TR.
  destruct (ln_close E P (4 * u) P0 ltac:(lra) EE) as (_ & LE).
  assert (LE' : Rabs (ln E) <= Rabs (ln P) + 8 * u).
  { replace (ln E) with ((ln E - ln P) + ln P) by ring. eapply Rle_trans; [apply Rabs_triang|]. lra. }
  destruct (pow_there_back (raise r) PE) as (PY & PQ & QE).
  { fold E. lra. }
  { fold E. apply Rle_trans with (B2R g * (Rabs (ln P) + 8 * u)); [apply Rmult_le_compat_l; lra|]. 
    assert (B2R g * u <= 10000 * / 1000) by (apply Rmult_le_compat; lra). lra. }
  fold y in PY, PQ, QE. set (q := pow y (Bdiv mode_NE (f64_cst L1) g)) in *. fold E in QE.
  assert (I0 : 0 < / B2R g) by (apply Rinv_0_lt_compat; lra).
  assert (QE' : Rabs (ln (B2R q) - ln E) <= log_err P).
  { eapply Rle_trans; [exact QE|]. unfold log_err. apply Rplus_le_compat_l. apply Rmult_le_compat_l; lra. }
  assert (G1 : / B2R g * k <= / 100).
  { apply Rmult_le_reg_l with (B2R g); [lra|]. rewrite <- Rmult_assoc, Rinv_r by lra. lra. }
  assert (LB : 0 <= log_err P <= / 10).
  { unfold log_err. pose proof (Rabs_pos (ln P)). split.
    - apply Rplus_le_le_0_compat; apply Rmult_le_pos; try lra. assert (0 <= (1 + u) * / B2R g) by (apply Rmult_le_pos; lra). unfold Rdiv. lra.
    - replace ((1 + (1 + u) / B2R g) * k) with (k + (1 + u) * (/ B2R g * k)) by (unfold Rdiv; ring).
      assert (0 <= / B2R g * k) by (apply Rmult_le_pos; lra).
      assert (u * (/ B2R g * k) <= / 1000 * / 100) by (apply Rmult_le_compat; lra).
      assert (UU : u <= / 100000). { unfold ulp_half. change (2 ^ 53)%Z with 9007199254740992%Z. apply Rinv_le_contravar; lra. }
      assert (u * (Rabs (ln P) + 1) <= / 100000 * 601) by (apply Rmult_le_compat; lra). lra. }
  set (kap := exp (log_err P) - 1). assert (KB : 0 <= kap <= 10 / 9 * / 10).
  { pose proof (exp_ineq1_le (log_err P)). pose proof (exp_small _ LB). unfold kap. lra. }
  assert (E0 : 0 < E) by apply PE. pose proof (rel_of_ln E (B2R q) _ E0 (proj2 PQ) QE') as QR. fold kap in QR.
  assert (EU : E <= (1 + 4 * u) * P). { apply Rabs_le_inv in EE. lra. }
  assert (QP : Rabs (B2R q - P) <= (2 * kap + 4 * u) * P).
  { replace (B2R q - P) with ((B2R q - E) + (E - P)) by ring. eapply Rle_trans; [apply Rabs_triang|].
    assert (kap * E <= kap * ((1 + 4 * u) * P)) by (apply Rmult_le_compat_l; lra).
    assert (4 * u * P <= P) by (assert (u * P <= / 1000 * P) by (apply Rmult_le_compat_r; lra); lra).
    assert (kap * (4 * u * P) <= kap * P) by (apply Rmult_le_compat_l; lra). lra. }
  destruct (lower_err r q (2 * kap + 4 * u) R R0 P0 LP (proj1 PQ) QP ltac:(lra)) as (FZ & ZE). fold z in FZ, ZE.
  repeat split; try apply PE; try apply PY; try assumption. eapply Rle_trans; [exact ZE|]. right. unfold kap. ring.
Qed.
End Affine.
