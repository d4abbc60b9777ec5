(** Error bounds of the curves at binary64 (C80). *)
From Coq Require Import ZArith Reals Lia Lra Psatz.
From Flocq Require Import Core Relative IEEE754.BinarySingleNaN.
From Verif Require Import M_Base M_F64 M_Curve M_CurveF64 S_F64 P_S15 P_F64 P_Curve3.
Open Scope R_scope.
Notation u := ulp_half.

Lemma u_pos : 0 < u <= / 1000.
Proof.
  unfold ulp_half. change (2 ^ 53)%Z with 9007199254740992%Z. split; [apply Rinv_0_lt_compat; lra|]. apply Rinv_le_contravar; lra.
Qed.
(** Rounding a number of ordinary size is off by at most [u] relatively. *)
Lemma rne_rel x : bpow radix2 (-1022) <= Rabs x -> Rabs (rne x - x) <= u * Rabs x.
Proof.
  intros H. rewrite fexp_eq. eapply Rle_trans; [apply (relative_error_N_FLT radix2 (-1074) 53 eq_refl (fun z => negb (Z.even z)))|].
  - exact H.
  - right. f_equal. unfold ulp_half. change (bpow radix2 (- (53) + 1)) with (/ 4503599627370496). change (2 ^ 53)%Z with 9007199254740992%Z. lra.
Qed.
Lemma recip_rel (g : f64) : finite g -> B2R (f64_cst Ltol) <= B2R g <= 10000 ->
  let r := Bdiv mode_NE (f64_cst L1) g in positive r /\ Rabs (B2R g * B2R r - 1) <= u.
Proof.
  intros F (L & U) r. split; [now apply recip_positive|]. destruct cst1 as (E1 & F1). destruct cst_tol as (ET & FT).
  pose proof tol64_range as TR.
  assert (NZ : B2R g <> 0) by lra. destruct (ov_div (f64_cst L1) g F1 F NZ) as (O & _). fold r in O. rewrite E1 in O.
  rewrite ov_fin in O by (apply (recip_positive g F L)).
  assert (I1 : / 10000 <= 1 / B2R g) by (unfold Rdiv; rewrite Rmult_1_l; apply Rinv_le_contravar; lra).
  assert (I2 : 1 / B2R g <= 20000) by (unfold Rdiv; rewrite Rmult_1_l; rewrite <- (Rinv_inv 20000); apply Rinv_le_contravar; rewrite ET in L; lra).
  assert (RU : rne (1 / B2R g) <= 20000) by (apply rne_le; [apply (fmt_int 20000); lia|exact I2]).
  assert (RD : 0 <= rne (1 / B2R g)) by (apply rne_ge; [apply generic_format_0|lra]).
  rewrite cap_small in O.
  2:{ rewrite Rabs_pos_eq by exact RD. apply Rle_lt_trans with (bpow radix2 15); [change (bpow radix2 15) with 32768; lra|]. apply bpow_lt. lia. }
  rewrite O. pose proof (rne_rel (1 / B2R g)) as E.
  rewrite (Rabs_pos_eq (1 / B2R g)) in E by lra.
  assert (B : bpow radix2 (-1022) <= 1 / B2R g).
  { eapply Rle_trans; [|exact I1]. apply Rle_trans with (bpow radix2 (-14)); [apply bpow_le; lia|]. change (bpow radix2 (-14)) with (/ 16384). apply Rinv_le_contravar; lra. }
  specialize (E B). replace (B2R g * rne (1 / B2R g) - 1) with (B2R g * (rne (1 / B2R g) - 1 / B2R g)) by (field; exact NZ).
  rewrite Rabs_mult, (Rabs_pos_eq (B2R g)) by lra.
  replace u with (B2R g * (u * (1 / B2R g))) by (field; exact NZ). apply Rmult_le_compat_l; lra.
Qed.

Section Accuracy.
Context (pow : f64 -> f64 -> f64) (lg ex : f64 -> f64) (k : R) (AP : accurate_pow k pow).
Notation O := (f64_ops pow lg ex).
Ltac ev := unfold eval_parametric; cbn [nth_error f64_ops f_lit f_neg f_abs f_add f_sub f_mul f_div f_lt f_ge f_max f_pow f_log10 f_exp];
  rewrite ?cst0.
Lemma pos_not_ltb x : positive x -> f64_ltb x zero = false.
Proof.
  intros (F & P). apply Bool.not_true_iff_false. rewrite ltb_iff. intros (_ & _ & H). rewrite ov_fin in H by exact F. cbn in H. lra.
Qed.
Lemma tol_not_ltb x : positive x -> B2R (f64_cst Ltol) <= B2R x -> f64_ltb (Babs x) (f64_cst Ltol) = false.
Proof.
  intros (F & P) L. apply Bool.not_true_iff_false. rewrite ltb_iff. intros (_ & _ & H). destruct cst_tol as (_ & FT).
  rewrite abs_ov, !ov_fin in H by assumption. rewrite Rabs_pos_eq in H; lra.
Qed.
Lemma k_pos : 0 <= k.
Proof.
  destruct (AP (f64_cst L1) (f64_cst L1)) as (_ & H); [split; [apply cst1|rewrite (proj1 cst1); lra]|apply cst1|rewrite (proj1 cst1), ln_1, Rmult_0_r, Rabs_R0; lra|].
  eapply Rle_trans; [apply Rabs_pos|exact H].
Qed.
(** Reverse, then forward. *)
Lemma type1_fwd_rev g y : finite g -> B2R (f64_cst Ltol) <= B2R g <= 10000 -> positive y ->
  Rabs (ln (B2R y)) <= 690 -> Rabs (ln (B2R y)) <= 690 * B2R g -> B2R g * k <= 1 ->
  exists x z, eval_parametric O (-1) [g] y = Some x /\ eval_parametric O 1 [g] x = Some z /\ positive x /\ positive z /\
    Rabs (ln (B2R z) - ln (B2R y)) <= (1 + B2R g) * k + u * Rabs (ln (B2R y)).
Proof.
  intros G T Y L1' L2 K. pose proof tol64_range as TR. pose proof k_pos as K0. pose proof u_pos as U.
  assert (PG : positive g) by (split; [exact G|lra]).
  destruct (recip_rel g G T) as (PR & RE). set (r := Bdiv mode_NE (f64_cst L1) g) in *.
  set (l := ln (B2R y)) in *. set (G' := B2R g) in *. set (R' := B2R r) in *.
  assert (RL : G' * Rabs (R' * l) <= (1 + u) * Rabs l).
  { rewrite <- (Rabs_pos_eq G') at 1 by lra. rewrite <- Rabs_mult. replace (G' * (R' * l)) with (G' * R' * l) by ring. rewrite Rabs_mult.
    apply Rmult_le_compat_r; [apply Rabs_pos|]. apply Rabs_le_inv in RE. apply Rabs_le. lra. }
  destruct (AP y r Y (proj1 PR)) as (PX & EX).
  { fold R' l. apply Rmult_le_reg_l with G'; [lra|]. eapply Rle_trans; [exact RL|]. apply Rle_trans with ((1 + u) * (690 * G')); [apply Rmult_le_compat_l; lra|nra]. }
  set (x := pow y r) in *. fold R' l in EX.
  assert (D1 : Rabs (G' * ln (B2R x) - l) <= G' * k + u * Rabs l).
  { replace (G' * ln (B2R x) - l) with (G' * (ln (B2R x) - R' * l) + (G' * R' - 1) * l) by ring.
    eapply Rle_trans; [apply Rabs_triang|]. rewrite !Rabs_mult, (Rabs_pos_eq G') by lra.
    apply Rplus_le_compat; [apply Rmult_le_compat_l; lra|apply Rmult_le_compat_r; [apply Rabs_pos|exact RE]]. }
  destruct (AP x g PX G) as (PZ & EZ).
  { fold G'. replace (G' * ln (B2R x)) with ((G' * ln (B2R x) - l) + l) by ring. eapply Rle_trans; [apply Rabs_triang|]. nra. }
  fold G' in EZ. exists x, (pow x g). repeat split; try apply PX; try apply PZ.
  - ev. rewrite pos_not_ltb, tol_not_ltb by (assumption || (fold G'; lra)). reflexivity.
  - ev. rewrite pos_not_ltb by assumption. reflexivity.
  - replace (ln (B2R (pow x g)) - l) with ((ln (B2R (pow x g)) - G' * ln (B2R x)) + (G' * ln (B2R x) - l)) by ring.
    eapply Rle_trans; [apply Rabs_triang|]. lra.
Qed.
(** Forward, then reverse. *)
Lemma type1_rev_fwd g x : finite g -> B2R (f64_cst Ltol) <= B2R g <= 10000 -> positive x ->
  Rabs (ln (B2R x)) <= 690 -> B2R g * Rabs (ln (B2R x)) <= 690 -> k <= B2R g ->
  exists y z, eval_parametric O 1 [g] x = Some y /\ eval_parametric O (-1) [g] y = Some z /\ positive y /\ positive z /\
    Rabs (ln (B2R z) - ln (B2R x)) <= (1 + (1 + u) / B2R g) * k + u * Rabs (ln (B2R x)).
Proof.
  intros G T X L1' L2 K. pose proof tol64_range as TR. pose proof k_pos as K0. pose proof u_pos as U.
  assert (PG : positive g) by (split; [exact G|lra]).
  destruct (recip_rel g G T) as (PR & RE). set (r := Bdiv mode_NE (f64_cst L1) g) in *.
  set (l := ln (B2R x)) in *. set (G' := B2R g) in *. set (R' := B2R r) in *.
  destruct (AP x g X G) as (PY & EY).
  { fold G' l. rewrite Rabs_mult, (Rabs_pos_eq G') by lra. lra. }
  fold G' l in EY. set (y := pow x g) in *.
  assert (RU : R' <= (1 + u) / G').
  { apply Rabs_le_inv in RE. apply Rmult_le_reg_l with G'; [lra|]. replace (G' * ((1 + u) / G')) with (1 + u) by (field; lra). lra. }
  assert (R0 : 0 < R') by apply PR.
  assert (D1 : Rabs (R' * ln (B2R y) - l) <= (1 + u) / G' * k + u * Rabs l).
  { replace (R' * ln (B2R y) - l) with (R' * (ln (B2R y) - G' * l) + (G' * R' - 1) * l) by ring.
    eapply Rle_trans; [apply Rabs_triang|]. rewrite !Rabs_mult, (Rabs_pos_eq R') by lra.
    apply Rplus_le_compat; [apply Rmult_le_compat; lra || apply Rabs_pos|apply Rmult_le_compat_r; [apply Rabs_pos|exact RE]]. }
  assert (KG : (1 + u) / G' * k <= 2).
  { apply Rmult_le_reg_l with G'; [lra|]. replace (G' * ((1 + u) / G' * k)) with ((1 + u) * k) by (field; lra). nra. }
  destruct (AP y r PY (proj1 PR)) as (PZ & EZ).
  { fold R'. replace (R' * ln (B2R y)) with ((R' * ln (B2R y) - l) + l) by ring. eapply Rle_trans; [apply Rabs_triang|]. nra. }
  fold R' in EZ. exists y, (pow y r). repeat split; try apply PY; try apply PZ.
  - ev. rewrite pos_not_ltb by assumption. reflexivity.
  - ev. rewrite pos_not_ltb, tol_not_ltb by (assumption || (fold G'; lra)). reflexivity.
  - replace (ln (B2R (pow y r)) - l) with ((ln (B2R (pow y r)) - R' * ln (B2R y)) + (R' * ln (B2R y) - l)) by ring.
    eapply Rle_trans; [apply Rabs_triang|]. lra.
Qed.
End Accuracy.
