(** Round trips of types 2 and 4 at binary64. *)
From Coq Require Import ZArith Reals Lia Lra Psatz.
From Flocq Require Import Core IEEE754.BinarySingleNaN.
From Verif Require Import M_Base M_F64 M_Curve M_CurveF64 S_F64 P_S15 P_F64 P_Curve3 P_CurveErr P_Ideal P_CurveErr2 P_CurveErr3.
Open Scope R_scope.

Ltac ev := unfold eval_parametric; cbn [nth_error f64_ops f_lit f_neg f_abs f_add f_sub f_mul f_div f_lt f_ge f_max f_pow f_log10 f_exp];
  rewrite ?cst0.
Lemma pos_ltb x : positive x -> f64_ltb zero x = true.
Proof. intros (F & P). apply ltb_iff. rewrite (ov_fin x) by exact F. repeat split; [now apply fin_not_nan|]. exact P. Qed.
Lemma fin_ltb x y : finite x -> finite y -> f64_ltb x y = Rlt_bool (B2R x) (B2R y).
Proof.
  intros F F'. apply Bool.eq_iff_eq_true. rewrite ltb_iff, !ov_fin by assumption. split.
  - intros (_ & _ & H). now apply Rlt_bool_true.
  - destruct (Rlt_bool_spec (B2R x) (B2R y)); [|discriminate]. intros _. repeat split; try apply fin_not_nan; assumption.
Qed.
Lemma nonneg_not_ltb x : le64 zero x -> f64_ltb x zero = false.
Proof. intros L. apply Bool.not_true_iff_false. rewrite ltb_lt64. intros (_ & N). contradiction. Qed.

Section Round.
Context (pow : f64 -> f64 -> f64) (lg ex : f64 -> f64) (k : R) (AP : accurate_pow k pow).
Context (g a b : f64) (G : finite g) (TG : B2R (f64_cst Ltol) <= B2R g <= 10000)
  (A : finite a) (TA : B2R (f64_cst Ltol) <= B2R a <= 10000) (B : finite b) (B0 : 0 <= B2R b) (K1 : k <= / 100) (KG : k <= B2R g / 100).
Notation O := (f64_ops pow lg ex).
Notation raise r := (Bplus mode_NE (Bmult mode_NE a r) b).

Lemma kg : k <= B2R g.
Proof. pose proof tol64_small. lra. Qed.
Lemma pg : positive g.
Proof. pose proof tol64_small. split; [exact G|lra]. Qed.
Lemma pa : positive a.
Proof. pose proof tol64_small. split; [exact A|lra]. Qed.

Lemma type2_err r : finite r -> 0 <= B2R r -> let P := B2R a * B2R r + B2R b in 0 < P -> Rabs (ln P) <= 600 -> B2R g * Rabs (ln P) <= 600 ->
  exists y z, eval_parametric O 2 [g; a; b] r = Some y /\ eval_parametric O (-2) [g; a; b] y = Some z /\ finite z /\
    Rabs (B2R z - B2R r) <= (2 * (exp (log_err k g P) - 1) + 8 * u) * (B2R r + B2R b / B2R a).
Proof.
  intros R R0 P P0 LP GP. destruct (affine_err pow k AP g a b G TG A TA B B0 kg K1 KG r R R0 P0 LP GP) as (PE & PY & FZ & ZE).
  fold P in ZE. set (y := pow (raise r) g) in *. set (z := Bdiv mode_NE (Bminus mode_NE (pow y (Bdiv mode_NE (f64_cst L1) g)) b) a) in *.
  pose proof pg. pose proof pa. pose proof tol64_small.
  exists y, (if f64_ltb z zero then zero else z). split; [|split; [|split]].
  - ev. rewrite tol_not_ltb by (assumption || lra).
    assert (D : f64_geb r (Bdiv mode_NE (Bopp b) a) = true).
    { apply geb_iff. destruct (ov_div (Bopp b) a) as (OD & ND); [now rewrite is_finite_Bopp|exact A|lra|].
      apply le64_ov. split; [exact ND|]. split; [now apply fin_not_nan|]. rewrite OD, B2R_Bopp, (ov_fin r) by exact R.
      apply Rle_trans with 0; [|exact R0].
      assert (V : - B2R b / B2R a <= 0).
      { assert (0 <= B2R b / B2R a) by (apply Rmult_le_pos; [exact B0|left; apply Rinv_0_lt_compat; lra]). lra. }
      assert (W : rne (- B2R b / B2R a) <= 0) by (apply rne_le; [apply fmt0|exact V]).
      apply cap_mono in W. rewrite (cap_small 0) in W by (rewrite Rabs_R0; apply top_pos). exact W. }
    rewrite D, pos_ltb by exact PE. reflexivity.
  - ev. rewrite !tol_not_ltb by (assumption || lra). cbn [orb]. rewrite (pos_not_ltb y) by exact PY. reflexivity.
  - destruct (f64_ltb z zero); [reflexivity|exact FZ].
  - rewrite fin_ltb by (exact FZ || reflexivity). change (B2R zero) with 0. destruct (Rlt_bool_spec (B2R z) 0) as [L|L]; [|exact ZE].
    eapply Rle_trans; [|exact ZE]. change (B2R zero) with 0. rewrite (Rabs_left1 (0 - B2R r)), (Rabs_left1 (B2R z - B2R r)) by lra. lra.
Qed.

Context (MP : monotone_pow pow) (c d : f64) (C : finite c) (TC : B2R (f64_cst Ltol) <= B2R c <= 10000) (D : finite d) (D0 : 0 <= B2R d <= 10000)
  (ORD : lt64 (Bmult mode_NE d c) (pow (raise d) g)).
Lemma raise_nonneg r : finite r -> 0 <= B2R r -> le64 zero (raise r).
Proof.
  intros R R0. apply le64_trans with (Bplus mode_NE zero b).
  - destruct (ov_plus zero b eq_refl B) as (OP & NP). apply le_zero. split; [now apply number_nan|]. rewrite OP.
    apply cap_nonneg, rne_ge; [apply fmt0|]. change (B2R zero) with 0. lra.
  - apply plus_mono; [|exact B]. destruct (ov_mult a r A R) as (OM & NM). apply le_zero. split; [now apply number_nan|]. rewrite OM.
    apply cap_nonneg, rne_ge; [apply fmt0|]. apply Rmult_le_pos; [|exact R0]. pose proof pa as (_ & ?). lra.
Qed.
Lemma type4_upper_err r : finite r -> B2R d <= B2R r -> let P := B2R a * B2R r + B2R b in 0 < P -> Rabs (ln P) <= 600 -> B2R g * Rabs (ln P) <= 600 ->
  exists y z, eval_parametric O 4 [g; a; b; c; d] r = Some y /\ eval_parametric O (-4) [g; a; b; c; d] y = Some z /\ finite z /\
    Rabs (B2R z - B2R r) <= (2 * (exp (log_err k g P) - 1) + 8 * u) * (B2R r + B2R b / B2R a).
Proof.
  intros R RD P P0 LP GP. assert (R0 : 0 <= B2R r) by lra.
  destruct (affine_err pow k AP g a b G TG A TA B B0 kg K1 KG r R R0 P0 LP GP) as (PE & PY & FZ & ZE).
  fold P in ZE. set (y := pow (raise r) g) in *. set (z := Bdiv mode_NE (Bminus mode_NE (pow y (Bdiv mode_NE (f64_cst L1) g)) b) a) in *.
  pose proof pg. pose proof pa. pose proof tol64_small.
  assert (LD : le64 d r) by (apply le64_fin; assumption).
  exists y, z. split; [|split; [|split; assumption]].
  - ev. rewrite (proj2 (geb_iff r d) LD), pos_ltb by exact PE. reflexivity.
  - ev. rewrite nonneg_not_ltb by (apply raise_nonneg; [exact D|lra]).
    assert (GE : f64_geb y (pow (raise d) g) = true).
    { apply geb_iff. apply MP; [exact pg|apply raise_nonneg; [exact D|lra]|]. apply plus_mono; [|exact B]. now apply mult_mono; [exact pa|]. }
    rewrite GE, !tol_not_ltb by (assumption || lra). reflexivity.
Qed.
Lemma type4_lower_err r : finite r -> 0 <= B2R r < B2R d ->
  exists y z, eval_parametric O 4 [g; a; b; c; d] r = Some y /\ eval_parametric O (-4) [g; a; b; c; d] y = Some z /\ finite z /\
    Rabs (B2R z - B2R r) <= 3 * u * B2R r + bpow radix2 (-1060).
Proof.
  intros R RD. pose proof tol64_small as TS. pose proof u_pos as U. pose proof eta_pos as EP.
  assert (PC : positive c) by (split; [exact C|lra]).
  assert (RC : 0 <= B2R r * B2R c <= 10000 * 10000) by (split; [apply Rmult_le_pos; lra|apply Rmult_le_compat; lra]).
  assert (HB : 10000 * 10000 * 100000 <= huge).
  { apply Rle_trans with (bpow radix2 50); [change (bpow radix2 50) with 1125899906842624; lra|apply bpow_le; lia]. }
  destruct (op_fin _ _ (ov_mult r c R C)) as (FY & EY); [rewrite Rabs_pos_eq; lra|]. rewrite (Rabs_pos_eq (B2R r * B2R c)) in EY by lra.
  set (y := Bmult mode_NE r c) in *. set (Y := B2R y) in *. set (c' := B2R c) in *. set (r' := B2R r) in *.
  assert (C0 : 0 < c') by lra. pose proof (Rinv_0_lt_compat _ C0) as I0.
  assert (IU : / c' <= 20000). { rewrite <- (Rinv_inv 20000). apply Rinv_le_contravar; [lra|]. destruct cst_tol as (ET & _). rewrite ET in TC. lra. }
  assert (E1 : eta <= / 1000).
  { apply Rle_trans with (bpow radix2 (-10)); [apply bpow_le; lia|]. change (bpow radix2 (-10)) with (/ 1024). apply Rinv_le_contravar; lra. }
  assert (D1 : Rabs (Y / c' - r') <= u * r' + 20000 * eta).
  { replace (Y / c' - r') with ((Y - r' * c') * / c') by (field; lra). rewrite Rabs_mult, (Rabs_pos_eq (/ c')) by lra.
    apply Rle_trans with ((u * (r' * c') + eta) * / c'); [apply Rmult_le_compat_r; lra|].
    replace ((u * (r' * c') + eta) * / c') with (u * r' + / c' * eta) by (field; lra). apply Rplus_le_compat_l. apply Rmult_le_compat_r; lra. }
  assert (ur : u * r' <= / 1000 * r') by (apply Rmult_le_compat_r; lra).
  assert (D2 : Rabs (Y / c') <= 2 * r' + 20000 * eta).
  { replace (Y / c') with ((Y / c' - r') + r') by ring. eapply Rle_trans; [apply Rabs_triang|]. rewrite (Rabs_pos_eq r') by lra. lra. }
  assert (D3 : Rabs (Y / c') <= (1 + u) * r' + 20000 * eta).
  { replace (Y / c') with ((Y / c' - r') + r') by ring. eapply Rle_trans; [apply Rabs_triang|]. rewrite (Rabs_pos_eq r') by lra. lra. }
  destruct (op_fin _ _ (ov_div y c FY C ltac:(fold c'; lra))) as (FZ & EZ); [fold Y c'; lra|]. fold Y c' in EZ.
  assert (MR : le64 (Bmult mode_NE r c) (Bmult mode_NE d c)) by (apply mult_mono; [exact PC|apply le64_fin; [exact R|exact D|fold r'; lra]]).
  assert (GE : f64_geb y (pow (raise d) g) = false).
  { apply Bool.not_true_iff_false. rewrite geb_iff. intros H. destruct ORD as (_ & N). apply N. now apply le64_trans with y. }
  exists y, (Bdiv mode_NE y c). split; [|split; [|split; [exact FZ|]]].
  - ev. assert (N : f64_geb r d = false).
    { apply Bool.not_true_iff_false. rewrite geb_iff, le64_fin by assumption. fold r'. lra. }
    rewrite N. reflexivity.
  - ev. rewrite nonneg_not_ltb by (apply raise_nonneg; [exact D|lra]). rewrite GE, tol_not_ltb by (assumption || (fold c'; lra)). reflexivity.
  - set (z := B2R (Bdiv mode_NE y c)) in *.
    replace (z - r') with ((z - Y / c') + (Y / c' - r')) by ring. eapply Rle_trans; [apply Rabs_triang|].
    assert (uY : u * Rabs (Y / c') <= u * ((1 + u) * r' + 20000 * eta)) by (apply Rmult_le_compat_l; lra).
    assert (u * (u * r') <= / 1000 * (u * r')) by (apply Rmult_le_compat_r; [|lra]; apply Rmult_le_pos; lra).
    assert (u * (20000 * eta) <= / 1000 * (20000 * eta)) by (apply Rmult_le_compat_r; lra).
    assert (0 <= u * r') by (apply Rmult_le_pos; lra).
    assert (EE : 30000 * eta <= bpow radix2 (-1060)).
    { change (bpow radix2 (-1060)) with (bpow radix2 (15 + -1075)). rewrite bpow_plus. change (bpow radix2 15) with 32768. lra. }
    lra.
Qed.
End Round.
