(** C83-C85: the sRGB curve: accuracy, storage as s15Fixed16, order.
    [pow], [lg], [ex]: the powf, log10 and exp of the platform. *)
From Coq Require Import ZArith Reals Lra.
From Flocq Require Import Core IEEE754.BinarySingleNaN.
From Verif Require Import M_Base M_F64 M_Curve M_CurveF64 S_F64 S_Srgb P_S15 P_F64 P_CurveErr P_Ideal P_Srgb P_Srgb2 P_Srgb3 P_Srgb4 Props_Curve5.
Open Scope R_scope.

(** C83.  Type 4 with parameters within [t] of the sRGB ones is within 7 t + 10^-8 of sRGB. *)
Theorem C83_srgb_accuracy :
  forall (pow : f64 -> f64 -> f64) (lg ex : f64 -> f64), accurate_pow (2 * ulp_half) pow ->
  forall g a b c d t, 0 <= t <= / 100000 -> srgb_params t g a b c d ->
  forall r, finite r -> 0 <= B2R r <= 1 ->
  exists y, eval_parametric (f64_ops pow lg ex) 4 [g; a; b; c; d] r = Some y /\ finite y /\
    Rabs (B2R y - srgb (B2R r)) <= 7 * t + / 100000000.
Proof. exact srgb_accuracy. Qed.
Print Assumptions C83_srgb_accuracy.

(** C84.  The sRGB parameters written as s15Fixed16 numbers and read back give a curve within 5 10^-5 of sRGB, with its reverse exact to
    2^-47, on every platform. *)
Theorem C84_stored_words :
  forall g a b c d, srgb_params (/ 10000000000) g a b c d ->
    List.map f64_to_s15f16 [g; a; b; c; d] = [157286; 62119; 3417; 5072; 2651]%Z.
Proof. exact stored_words. Qed.
Print Assumptions C84_stored_words.

Theorem C84_stored_srgb :
  forall (pow : f64 -> f64 -> f64) (lg ex : f64 -> f64), accurate_pow (2 * ulp_half) pow -> monotone_pow pow ->
  forall g a b c d, srgb_params (/ 10000000000) g a b c d ->
  forall e, exists g' a' b' c' d',
  List.map (fun x => s15f16_to_f64 e (f64_to_s15f16 x)) [g; a; b; c; d] = [Some g'; Some a'; Some b'; Some c'; Some d'] /\
  forall r, finite r -> 0 <= B2R r <= 1 ->
  exists y z, eval_parametric (f64_ops pow lg ex) 4 [g'; a'; b'; c'; d'] r = Some y /\
    eval_parametric (f64_ops pow lg ex) (-4) [g'; a'; b'; c'; d'] y = Some z /\ finite y /\ finite z /\
    Rabs (B2R y - srgb (B2R r)) <= 5 / 100000 /\ Rabs (B2R z - B2R r) <= / IZR (2 ^ 47) * B2R r + bpow radix2 (-1060).
Proof. exact stored_srgb. Qed.
Print Assumptions C84_stored_srgb.

(** C85.  The sRGB curve is increasing.  Its reverse is not: at the break it steps back by 10^-9 or more. *)
Theorem C85_srgb_increasing :
  forall (pow : f64 -> f64 -> f64) (lg ex : f64 -> f64), accurate_pow (2 * ulp_half) pow -> monotone_pow pow ->
  forall g a b c d, srgb_params (/ 10000000000) g a b c d -> increasing (eval_parametric (f64_ops pow lg ex) 4 [g; a; b; c; d]).
Proof. exact srgb_increasing. Qed.
Print Assumptions C85_srgb_increasing.

Theorem C85_reverse_steps_back :
  forall (pow : f64 -> f64 -> f64) (lg ex : f64 -> f64), accurate_pow (2 * ulp_half) pow -> monotone_pow pow ->
  forall g a b c d, srgb_params (/ 10000000000) g a b c d ->
  exists y x z, lt64 between y /\
    eval_parametric (f64_ops pow lg ex) (-4) [g; a; b; c; d] between = Some x /\
    eval_parametric (f64_ops pow lg ex) (-4) [g; a; b; c; d] y = Some z /\ finite x /\ finite z /\ B2R z + / 1000000000 <= B2R x.
Proof. exact srgb_reverse_steps_back. Qed.
Print Assumptions C85_reverse_steps_back.

Theorem C85_reverse_increasing_refuted :
  forall (pow : f64 -> f64 -> f64) (lg ex : f64 -> f64), accurate_pow (2 * ulp_half) pow -> monotone_pow pow ->
  forall g a b c d, srgb_params (/ 10000000000) g a b c d -> ~ increasing (eval_parametric (f64_ops pow lg ex) (-4) [g; a; b; c; d]).
Proof. exact srgb_reverse_not_increasing. Qed.
Print Assumptions C85_reverse_increasing_refuted.

(** The hypotheses are met by the correctly rounded powf and the f64 parameters of [C82_actual_params]. *)
Example C83_sample : forall lg ex g a b c d, srgb_params (/ 10000000000) g a b c d -> exists y,
  eval_parametric (f64_ops ideal_pow lg ex) 4 [g; a; b; c; d] (f64_cst Lhalf) = Some y /\ Rabs (B2R y - srgb (/ 2)) <= / 50000000.
Proof.
  intros lg ex g a b c d SP. destruct (cst_val Lhalf 1 (-1) eq_refl ltac:(lia) ltac:(lia)) as (EH & _).
  assert (H : B2R (f64_cst Lhalf) = / 2) by (rewrite EH; cbn; lra). 
  destruct (C83_srgb_accuracy ideal_pow lg ex ideal_accurate g a b c d (/ 10000000000) ltac:(lra) SP (f64_cst Lhalf) eq_refl ltac:(lra)) as (y & E & _ & A).
  exists y. split; [exact E|]. rewrite H in A. lra.
Qed.
Example C85_ideal : forall lg ex, increasing (eval_parametric (f64_ops ideal_pow lg ex) 4
  [f64_lit 5404319552844595 (-51); f64_lit 8537629625346912 (-53); f64_lit 7513114070305282 (-57); f64_lit 5577213160830336 (-56); f64_lit 5829459357668370 (-57)]).
Proof. intros. apply C85_srgb_increasing; [apply ideal_accurate|apply ideal_monotone|apply C82_actual_params]. Qed.
