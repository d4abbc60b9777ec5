(** C78-C80: order of s15Fixed16 numbers; accuracy of the gamma curve at binary64.
    [pow], [lg], [ex]: the powf, log10 and exp of the platform. *)
From Coq Require Import ZArith Reals Lra.
From Flocq Require Import IEEE754.BinarySingleNaN.
From Verif Require Import M_Base M_F64 M_Curve M_CurveF64 S_F64 P_F64 P_Curve3 P_S15Mono P_CurveErr P_CurveErr2 P_Ideal.
Open Scope Z_scope.

(** C78.  Encoding and decoding s15Fixed16 numbers respects order. *)
Theorem C78_encode_monotone :
  forall x x' : f64, le64 x x' -> f64_to_s15f16 x <= f64_to_s15f16 x'.
Proof. exact enc_mono. Qed.
Print Assumptions C78_encode_monotone.

Theorem C78_decode_order :
  forall e v v' x x', - 2 ^ 31 <= v < 2 ^ 31 -> - 2 ^ 31 <= v' < 2 ^ 31 ->
    s15f16_to_f64 e v = Some x -> s15f16_to_f64 e v' = Some x' -> (le64 x x' <-> v <= v').
Proof. exact dec_mono. Qed.
Print Assumptions C78_decode_order.

Theorem C78_encode_stable :
  forall e x y, s15f16_to_f64 e (f64_to_s15f16 x) = Some y -> f64_to_s15f16 y = f64_to_s15f16 x.
Proof. exact enc_dec_enc. Qed.
Print Assumptions C78_encode_stable.

Example C78_words :
  f64_to_s15f16 (f64_lit (-3) (-1)) = -98304 /\ f64_to_s15f16 (f64_lit 1 (-1)) = 32768 /\ f64_to_s15f16 (f64_lit 1 20) = 2147483647.
Proof. repeat split; vm_compute; reflexivity. Qed.

Open Scope R_scope.
(** C79.  Applying the gamma curve after its reverse (and before it) gives back the input up to an error that depends only on the
    accuracy of powf: all errors are differences of natural logarithms, i.e. relative errors. *)
Theorem C79_reverse_then_forward :
  forall (pow : f64 -> f64 -> f64) (lg ex : f64 -> f64) (k : R), accurate_pow k pow ->
  forall g y, finite g -> B2R (f64_cst Ltol) <= B2R g <= 10000 -> positive y ->
    Rabs (ln (B2R y)) <= 690 -> Rabs (ln (B2R y)) <= 690 * B2R g -> B2R g * k <= 1 ->
  exists x z, eval_parametric (f64_ops pow lg ex) (-1) [g] y = Some x /\ eval_parametric (f64_ops pow lg ex) 1 [g] x = Some z /\
    positive x /\ positive z /\ Rabs (ln (B2R z) - ln (B2R y)) <= (1 + B2R g) * k + ulp_half * Rabs (ln (B2R y)).
Proof. exact type1_fwd_rev. Qed.
Print Assumptions C79_reverse_then_forward.

Theorem C79_forward_then_reverse :
  forall (pow : f64 -> f64 -> f64) (lg ex : f64 -> f64) (k : R), accurate_pow k pow ->
  forall g x, finite g -> B2R (f64_cst Ltol) <= B2R g <= 10000 -> positive x ->
    Rabs (ln (B2R x)) <= 690 -> B2R g * Rabs (ln (B2R x)) <= 690 -> k <= B2R g ->
  exists y z, eval_parametric (f64_ops pow lg ex) 1 [g] x = Some y /\ eval_parametric (f64_ops pow lg ex) (-1) [g] y = Some z /\
    positive y /\ positive z /\ Rabs (ln (B2R z) - ln (B2R x)) <= (1 + (1 + ulp_half) / B2R g) * k + ulp_half * Rabs (ln (B2R x)).
Proof. exact type1_rev_fwd. Qed.
Print Assumptions C79_forward_then_reverse.

(** C80.  With a powf good to one unit in the last place, values between 2^-16 and 1 survive the round trip to within 2^-48 of their
    size, for every gamma between 1/4 and 4. *)
Theorem C80_reverse_then_forward :
  forall (pow : f64 -> f64 -> f64) (lg ex : f64 -> f64), accurate_pow (2 * ulp_half) pow ->
  forall g y, finite g -> / 4 <= B2R g <= 4 -> positive y -> / 65536 <= B2R y <= 1 ->
  exists x z, eval_parametric (f64_ops pow lg ex) (-1) [g] y = Some x /\ eval_parametric (f64_ops pow lg ex) 1 [g] x = Some z /\
    finite z /\ Rabs (B2R z - B2R y) <= / IZR (2 ^ 48) * B2R y.
Proof. exact sixteen_fwd_rev. Qed.
Print Assumptions C80_reverse_then_forward.

Theorem C80_forward_then_reverse :
  forall (pow : f64 -> f64 -> f64) (lg ex : f64 -> f64), accurate_pow (2 * ulp_half) pow ->
  forall g x, finite g -> / 4 <= B2R g <= 4 -> positive x -> / 65536 <= B2R x <= 1 ->
  exists y z, eval_parametric (f64_ops pow lg ex) 1 [g] x = Some y /\ eval_parametric (f64_ops pow lg ex) (-1) [g] y = Some z /\
    finite z /\ Rabs (B2R z - B2R x) <= / IZR (2 ^ 48) * B2R x.
Proof. exact sixteen_rev_fwd. Qed.
Print Assumptions C80_forward_then_reverse.

(** One math library has all the properties assumed in C75, C76, C79 and C80. *)
Example C80_a_math_library : monotone_pow ideal_pow /\ nan_keeping_pow ideal_pow /\ accurate_pow (2 * ulp_half) ideal_pow.
Proof. exact (conj ideal_monotone (conj ideal_nan ideal_accurate)). Qed.
Example C80_half : forall lg ex, exists x z,
  eval_parametric (f64_ops ideal_pow lg ex) (-1) [f64_cst L2] (f64_cst Lhalf) = Some x /\
  eval_parametric (f64_ops ideal_pow lg ex) 1 [f64_cst L2] x = Some z /\ finite z /\ Rabs (B2R z - / 2) <= / IZR (2 ^ 48) * / 2.
Proof.
  intros lg ex. destruct (cst_val L2 2 0 eq_refl ltac:(lia) ltac:(lia)) as (E2 & _).
  destruct (cst_val Lhalf 1 (-1) eq_refl ltac:(lia) ltac:(lia)) as (EH & _).
  assert (H2 : B2R (f64_cst L2) = 2) by (rewrite E2; cbn; lra). assert (H : B2R (f64_cst Lhalf) = / 2) by (rewrite EH; cbn; lra).
  assert (F2 : finite (f64_cst L2)) by reflexivity. assert (FH : finite (f64_cst Lhalf)) by reflexivity.
  rewrite <- H. apply C80_reverse_then_forward; [apply ideal_accurate|exact F2|lra|split; [exact FH|lra]|lra].
Qed.
