(** Order: the sRGB curve and its reverse. *)
From Coq Require Import ZArith Reals Lia Lra Psatz.
From Flocq Require Import Core IEEE754.BinarySingleNaN.
From Verif Require Import M_Base M_F64 M_Curve M_CurveF64 S_F64 S_Srgb P_S15 P_S15IO P_F64 P_Curve3 P_CurveErr P_Ideal P_CurveErr2 P_CurveErr3 P_CurveErr4 P_Srgb P_Srgb2 P_Srgb3.
Open Scope R_scope.

Section Order.
Context (pow : f64 -> f64 -> f64) (lg ex : f64 -> f64) (AP : accurate_pow (2 * ulp_half) pow) (MP : monotone_pow pow).
Context (g a b c d : f64) (SP : srgb_params (/ 10000000000) g a b c d).
Notation O := (f64_ops pow lg ex).
Lemma srgb_increasing : increasing (eval_parametric O 4 [g; a; b; c; d]).
Proof.
  pose proof (break_order pow AP g a b c d SP) as BO. pose proof (break_value_lower pow AP g a b c d SP) as BV.
  destruct SP as (Hg & Ha & Hb & Hc & Hd). apply near_range in Hg, Ha, Hb, Hc, Hd.
  destruct Hg as (G & Rg), Ha as (A & Ra), Hb as (B & Rb), Hc as (C & Rc), Hd as (D & Rd). pose proof u_tiny as U.
  apply type4_mono; try (split; [assumption|lra]); try assumption.
  - intros ->. discriminate D.
  - intros y. ev. rewrite (proj2 (geb_iff d d)) by (apply le64_fin; (assumption || lra)).
    rewrite pos_ltb by exact (proj1 BV). intros Y. apply Some_inj in Y. subst y. exact (proj1 BO).
Qed.
(** 0.0031308058, between the two pieces of the curve at the break. *)
Definition between : f64 := f64_lit 7219146667135686 (-61).
Lemma between_val : finite between /\ 31308057 / 10000000000 <= B2R between <= 31308059 / 10000000000.
Proof.
  destruct (f64_lit_exact 7219146667135686 (-61) ltac:(lia) ltac:(lia)) as (V & F). fold between in V, F. split; [exact F|]. rewrite V.
  cbn [bpow]. change (Z.pow_pos radix2 61) with 2305843009213693952%Z. lra.
Qed.
Lemma srgb_reverse_steps_back : exists y x z, lt64 between y /\
  eval_parametric O (-4) [g; a; b; c; d] between = Some x /\ eval_parametric O (-4) [g; a; b; c; d] y = Some z /\
  finite x /\ finite z /\ B2R z + / 1000000000 <= B2R x.
Proof.
  pose proof (break_order pow AP g a b c d SP) as BO. pose proof (break_value_lower pow AP g a b c d SP) as BV.
  destruct between_val as (FB & VB).
  pose proof SP as SP'. destruct SP' as (Hg & Ha & Hb & Hc & Hd). apply near_range in Hg, Ha, Hb, Hc, Hd.
  destruct Hg as (G & Rg), Ha as (A & Ra), Hb as (B & Rb), Hc as (C & Rc), Hd as (D & Rd). pose proof u_tiny as U.
  assert (TL : B2R (f64_cst Ltol) < 2 / 10000) by (rewrite (proj1 cst_tol); lra). pose proof tol64_small as TS.
  destruct (srgb_round pow lg ex AP MP g a b c d SP d D ltac:(lra)) as (y & z & E1 & E2 & FZ & ZE).
  assert (EY : y = pow (Bplus mode_NE (Bmult mode_NE a d) b) g).
  { revert E1. ev. rewrite (proj2 (geb_iff d d)) by (apply le64_fin; (assumption || lra)). destruct BV as (PE & _). rewrite pos_ltb by exact PE.
    intros Y. apply Some_inj in Y. now symmetry. }
  destruct BV as (PE & FY & VY). cbn zeta in VY.
  assert (LT : lt64 between y) by (rewrite EY; split; rewrite le64_fin by assumption; lra).
  destruct (op_fin _ _ (ov_div between c FB C ltac:(lra))) as (FX & EX).
  { assert (IC : 0 < / B2R c <= 20) by (split; [apply Rinv_0_lt_compat; lra|rewrite <- (Rinv_inv 20); apply Rinv_le_contravar; lra]).
    unfold Rdiv. rewrite Rabs_pos_eq by nra. apply Rle_trans with (bpow radix2 10); [change (bpow radix2 10) with 1024; nra|apply bpow_le; lia]. }
  exists y, (Bdiv mode_NE between c), z. split; [exact LT|]. split; [|split; [exact E2|split; [exact FX|split; [exact FZ|]]]].
  - ev. rewrite nonneg_not_ltb by (apply raise_nonneg; try assumption; lra).
    assert (N : f64_geb between (pow (Bplus mode_NE (Bmult mode_NE a d) b) g) = false).
    { apply Bool.not_true_iff_false. rewrite geb_iff, <- EY. apply LT. }
    assert (PC : positive c) by (split; [exact C|lra]). rewrite N, tol_not_ltb by (assumption || lra). reflexivity.
  - assert (Q : 404500090 / 10000000000 <= B2R between / B2R c <= 1).
    { split; apply Rmult_le_reg_r with (B2R c); try lra; replace (B2R between / B2R c * B2R c) with (B2R between) by (field; lra); lra. }
    rewrite (Rabs_pos_eq (B2R between / B2R c)) in EX by lra. apply Rabs_le_inv in EX.
    assert (E0 : eta <= / 1000000000000000).
    { apply Rle_trans with (bpow radix2 (-60)); [apply bpow_le; lia|]. change (bpow radix2 (-60)) with (/ 1152921504606846976). apply Rinv_le_contravar; lra. }
    assert (B60 : bpow radix2 (-1060) <= / 1000000000000000).
    { apply Rle_trans with (bpow radix2 (-60)); [apply bpow_le; lia|]. change (bpow radix2 (-60)) with (/ 1152921504606846976). apply Rinv_le_contravar; lra. }
    assert (U64 : / IZR (2 ^ 47) <= / 100000000000000) by (change (2 ^ 47)%Z with 140737488355328%Z; apply Rinv_le_contravar; lra).
    apply Rabs_le_inv in ZE. nra.
Qed.
Lemma srgb_reverse_not_increasing : ~ increasing (eval_parametric O (-4) [g; a; b; c; d]).
Proof.
  intros H. destruct srgb_reverse_steps_back as (y & x & z & LT & E1 & E2 & FX & FZ & Q).
  destruct (H between y (proj1 LT)) as (x' & z' & E1' & E2' & LE). rewrite E1 in E1'. rewrite E2 in E2'. apply Some_inj in E1', E2'. subst.
  rewrite le64_fin in LE by assumption. lra.
Qed.
End Order.
