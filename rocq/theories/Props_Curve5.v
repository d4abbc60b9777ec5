(** C81-C82: round-trip accuracy of the curve types 2 and 4 at binary64, and of the sRGB curve.
    [pow], [lg], [ex]: the powf, log10 and exp of the platform. *)
From Coq Require Import ZArith Reals Lra.
From Flocq Require Import Core IEEE754.BinarySingleNaN.
From Verif Require Import M_Base M_F64 M_Curve M_CurveF64 S_F64 S_Srgb P_S15 P_F64 P_CurveErr P_Ideal P_CurveErr2 P_CurveErr3 P_CurveErr4 P_Srgb.
Open Scope R_scope.

(** C81.  The reverse of types 2 and 4 applied to the curve gives the input back.  The two roundings of the powers act on
    [P = a r + b]; subtracting [b] again turns the relative error of [P] into an error relative to [r + b / a]. *)
Theorem C81_type2 :
  forall (pow : f64 -> f64 -> f64) (lg ex : f64 -> f64) (k : R), accurate_pow k pow ->
  forall g a b, finite g -> B2R (f64_cst Ltol) <= B2R g <= 10000 -> finite a -> B2R (f64_cst Ltol) <= B2R a <= 10000 ->
    finite b -> 0 <= B2R b -> k <= / 100 -> k <= B2R g / 100 ->
  forall r, finite r -> 0 <= B2R r -> let P := B2R a * B2R r + B2R b in
    0 < P -> Rabs (ln P) <= 600 -> B2R g * Rabs (ln P) <= 600 ->
  exists y z, eval_parametric (f64_ops pow lg ex) 2 [g; a; b] r = Some y /\ eval_parametric (f64_ops pow lg ex) (-2) [g; a; b] y = Some z /\
    finite z /\
    let t := (1 + (1 + ulp_half) / B2R g) * k + ulp_half * (Rabs (ln P) + 1) in
    Rabs (B2R z - B2R r) <= (2 * (exp t - 1) + 8 * ulp_half) * (B2R r + B2R b / B2R a).
Proof. exact type2_err. Qed.
Print Assumptions C81_type2.

(** Above the break. *)
Theorem C81_type4_power_piece :
  forall (pow : f64 -> f64 -> f64) (lg ex : f64 -> f64) (k : R), accurate_pow k pow ->
  forall g a b, finite g -> B2R (f64_cst Ltol) <= B2R g <= 10000 -> finite a -> B2R (f64_cst Ltol) <= B2R a <= 10000 ->
    finite b -> 0 <= B2R b -> k <= / 100 -> k <= B2R g / 100 -> monotone_pow pow ->
  forall c d, finite d -> 0 <= B2R d <= 10000 ->
  forall r, finite r -> B2R d <= B2R r -> let P := B2R a * B2R r + B2R b in
    0 < P -> Rabs (ln P) <= 600 -> B2R g * Rabs (ln P) <= 600 ->
  exists y z, eval_parametric (f64_ops pow lg ex) 4 [g; a; b; c; d] r = Some y /\
    eval_parametric (f64_ops pow lg ex) (-4) [g; a; b; c; d] y = Some z /\ finite z /\
    let t := (1 + (1 + ulp_half) / B2R g) * k + ulp_half * (Rabs (ln P) + 1) in
    Rabs (B2R z - B2R r) <= (2 * (exp t - 1) + 8 * ulp_half) * (B2R r + B2R b / B2R a).
Proof. exact type4_upper_err. Qed.
Print Assumptions C81_type4_power_piece.

(** Below the break.  [d * c < (a d + b) ^ g], both as computed: the curve does not step down at the break. *)
Theorem C81_type4_linear_piece :
  forall (pow : f64 -> f64 -> f64) (lg ex : f64 -> f64),
  forall g a b, finite a -> B2R (f64_cst Ltol) <= B2R a <= 10000 -> finite b -> 0 <= B2R b ->
  forall c d, finite c -> B2R (f64_cst Ltol) <= B2R c <= 10000 -> finite d -> 0 <= B2R d <= 10000 ->
    lt64 (Bmult mode_NE d c) (pow (Bplus mode_NE (Bmult mode_NE a d) b) g) ->
  forall r, finite r -> 0 <= B2R r < B2R d ->
  exists y z, eval_parametric (f64_ops pow lg ex) 4 [g; a; b; c; d] r = Some y /\
    eval_parametric (f64_ops pow lg ex) (-4) [g; a; b; c; d] y = Some z /\ finite z /\
    Rabs (B2R z - B2R r) <= 3 * ulp_half * B2R r + bpow radix2 (-1060).
Proof. exact type4_lower_err. Qed.
Print Assumptions C81_type4_linear_piece.

(** C82.  The sRGB curve and its reverse, on the whole of [0, 1]. *)
Theorem C82_srgb_round_trip :
  forall (pow : f64 -> f64 -> f64) (lg ex : f64 -> f64), accurate_pow (2 * ulp_half) pow -> monotone_pow pow ->
  forall g a b c d, srgb_params (/ 10000000000) g a b c d ->
  forall r, finite r -> 0 <= B2R r <= 1 ->
  exists y z, eval_parametric (f64_ops pow lg ex) 4 [g; a; b; c; d] r = Some y /\
    eval_parametric (f64_ops pow lg ex) (-4) [g; a; b; c; d] y = Some z /\ finite z /\
    Rabs (B2R z - B2R r) <= / IZR (2 ^ 47) * B2R r + bpow radix2 (-1060).
Proof. exact srgb_round. Qed.
Print Assumptions C82_srgb_round_trip.

(** The computed curve does not step down at the break, which is not evident: the exact values there differ by 2.4e-9 only. *)
Theorem C82_srgb_break :
  forall (pow : f64 -> f64 -> f64), accurate_pow (2 * ulp_half) pow ->
  forall g a b c d, srgb_params (/ 10000000000) g a b c d -> lt64 (Bmult mode_NE d c) (pow (Bplus mode_NE (Bmult mode_NE a d) b) g).
Proof. exact break_order. Qed.
Print Assumptions C82_srgb_break.

(** The f64 nearest to 2.4, 1/1.055, 0.055/1.055, 1/12.92 and 0.04045. *)
Example C82_actual_params : srgb_params (/ 10000000000) (f64_lit 5404319552844595 (-51)) (f64_lit 8537629625346912 (-53)) (f64_lit 7513114070305282 (-57)) (f64_lit 5577213160830336 (-56)) (f64_lit 5829459357668370 (-57)).
Proof.
  assert (N : forall m e v, (Z.abs m <= 2 ^ 53)%Z -> (-1074 <= e <= 900)%Z -> Rabs (IZR m * bpow radix2 e - v) <= / 10000000000 -> within (/ 10000000000) (f64_lit m e) v).
  { intros m e v M E H. destruct (f64_lit_exact m e M E) as (V & F). split; [exact F|]. rewrite V. exact H. }
  repeat split; apply N; try lia; apply Rabs_le; cbn [bpow]; match goal with |- context [Z.pow_pos ?r ?p] => let v := eval vm_compute in (Z.pow_pos r p) in change (Z.pow_pos r p) with v end; lra.
Qed.
Example C82_at_a_half : forall lg ex g a b c d, srgb_params (/ 10000000000) g a b c d -> exists y z,
  eval_parametric (f64_ops ideal_pow lg ex) 4 [g; a; b; c; d] (f64_cst Lhalf) = Some y /\
  eval_parametric (f64_ops ideal_pow lg ex) (-4) [g; a; b; c; d] y = Some z /\ finite z /\
  Rabs (B2R z - B2R (f64_cst Lhalf)) <= / IZR (2 ^ 47) * B2R (f64_cst Lhalf) + bpow radix2 (-1060).
Proof.
  intros. destruct (cst_val Lhalf 1 (-1) eq_refl ltac:(lia) ltac:(lia)) as (EH & _).
  assert (H' : B2R (f64_cst Lhalf) = / 2) by (rewrite EH; cbn; lra).
  apply C82_srgb_round_trip; [apply ideal_accurate|apply ideal_monotone|assumption|reflexivity|lra].
Qed.
Example C81_square : forall lg ex, exists y z,
  eval_parametric (f64_ops ideal_pow lg ex) 2 [f64_cst L2; f64_cst L1; f64_cst L1] (f64_cst L1) = Some y /\
  eval_parametric (f64_ops ideal_pow lg ex) (-2) [f64_cst L2; f64_cst L1; f64_cst L1] y = Some z /\ finite z.
Proof.
  intros lg ex. destruct (cst_val L2 2 0 eq_refl ltac:(lia) ltac:(lia)) as (E2 & _). destruct cst1 as (E1 & F1).
  assert (H2 : B2R (f64_cst L2) = 2) by (rewrite E2; cbn; lra). pose proof tol64_small. pose proof u_tiny. pose proof ln2_upper. pose proof ln2_lower.
  assert (L : 0 <= ln (1 * 1 + 1) <= 1) by (replace (1 * 1 + 1) with 2 by lra; lra).
  destruct (C81_type2 ideal_pow lg ex (2 * ulp_half) ideal_accurate (f64_cst L2) (f64_cst L1) (f64_cst L1)) with (r := f64_cst L1) as (y & z & E & E' & F & _);
    rewrite ?H2, ?E1; try reflexivity; try lra; try (split; lra); rewrite ?Rabs_pos_eq; try lra.
  now exists y, z.
Qed.
