(** C114: curves whose parameters were stored as s15Fixed16 numbers.  [stored e x x']: x' is read back in the environment e after x was
    written; the parameter moves by half a step of 2^-16.  [pow], [lg], [ex]: powf, log10 and exp of the platform. *)
From Coq Require Import ZArith Reals Lra Lia List.
From Flocq Require Import Core IEEE754.BinarySingleNaN.
From Verif Require Import M_Base M_F64 M_Curve M_CurveF64 S_Curve S_F64 S_Accuracy S_Words S_Store P_S15 P_F64 P_Ideal P_Store Props_S15.
Import ListNotations.
Open Scope R_scope.

(** A gamma curve: the value computed with the stored gamma is within 2^-18 / g of x^g, and its 16-bit word is at most one off that of the
    value computed with the given gamma. *)
Theorem C114_gamma :
  forall (pow : f64 -> f64 -> f64) (lg ex : f64 -> f64), accurate_pow (2 * ulp_half) pow ->
  forall e g, finite g -> / 4 <= B2R g <= 16 -> exists g', stored e g g' /\
    forall x, finite x -> / 65536 <= B2R x <= 1 -> exists y y',
      eval_parametric (f64_ops pow lg ex) 1 [g] x = Some y /\ eval_parametric (f64_ops pow lg ex) 1 [g'] x = Some y' /\
      near y' (Rpower (B2R x) (B2R g)) (/ (262144 * B2R g) + / IZR (2 ^ 50)) /\ (Z.abs (to_word y' - to_word y) <= 1)%Z.
Proof. exact stored_gamma. Qed.
Print Assumptions C114_gamma.

(** The same for its reverse, x^(1/g). *)
Theorem C114_gamma_reversed :
  forall (pow : f64 -> f64 -> f64) (lg ex : f64 -> f64), accurate_pow (2 * ulp_half) pow ->
  forall e g, finite g -> / 4 <= B2R g <= 16 -> exists g', stored e g g' /\
    forall x, finite x -> / 65536 <= B2R x <= 1 -> exists y y',
      eval_parametric (f64_ops pow lg ex) (-1) [g] x = Some y /\ eval_parametric (f64_ops pow lg ex) (-1) [g'] x = Some y' /\
      near y' (Rpower (B2R x) (/ B2R g)) (/ (262144 * B2R g) + / IZR (2 ^ 45)) /\ (Z.abs (to_word y' - to_word y) <= 1)%Z.
Proof. exact stored_gamma_back. Qed.
Print Assumptions C114_gamma_reversed.

(** Types 2, 3 and 6 on a x + b up to 1: 2 g + 1 and 2 g + 2 half steps. *)
Theorem C114_offset_curves :
  forall (pow : f64 -> f64 -> f64) (lg ex : f64 -> f64), accurate_pow (2 * ulp_half) pow ->
  forall e g a b c, finite g -> 1 <= B2R g <= 4 -> finite a -> / 4 <= B2R a <= 1 -> finite b -> 0 <= B2R b -> B2R a + B2R b <= 1 ->
    finite c -> Rabs (B2R c) <= 1 -> exists g' a' b' c', stored e g g' /\ stored e a a' /\ stored e b b' /\ stored e c c' /\
    forall x, finite x -> 0 <= B2R x <= 1 -> / 256 <= B2R a * B2R x + B2R b ->
    let V := Rpower (B2R a * B2R x + B2R b) (B2R g) in
    (exists y, eval_parametric (f64_ops pow lg ex) 2 [g'; a'; b'] x = Some y /\ near y V (half_step * (2 * B2R g + 1))) /\
    (forall t, t = 3%Z \/ t = 6%Z ->
      exists y, eval_parametric (f64_ops pow lg ex) t [g'; a'; b'; c'] x = Some y /\ near y (V + B2R c) (half_step * (2 * B2R g + 2))).
Proof. exact stored_curve. Qed.
Print Assumptions C114_offset_curves.

(** A gamma of 2.2, which is no s15Fixed16 number; and ((x + 1) / 2)^2 - 1 at 1. *)
Example C114_cases : forall lg ex e,
  (exists g g', Rabs (B2R g - 22 / 10) <= / 1000000000 /\ stored e g g' /\ B2R g' = 144179 / 65536 /\
    exists y', eval_parametric (f64_ops ideal_pow lg ex) 1 [g'] (f64_cst Lhalf) = Some y' /\ Rabs (B2R y' - Rpower (/ 2) (B2R g)) <= / 500000) /\
  (exists g' a' b' c', stored e (f64_cst L2) g' /\ stored e (f64_cst Lhalf) a' /\ stored e (f64_cst Lhalf) b' /\ stored e (Bopp (f64_cst L1)) c' /\
    exists y, eval_parametric (f64_ops ideal_pow lg ex) 3 [g'; a'; b'; c'] (f64_cst L1) = Some y /\ Rabs (B2R y) <= / 10000).
Proof.
  intros lg ex e. destruct (cst_val L2 2 0 eq_refl ltac:(lia) ltac:(lia)) as (E2 & F2). destruct (cst_val Lhalf 1 (-1) eq_refl ltac:(lia) ltac:(lia)) as (EH & FH).
  destruct cst1 as (E1 & F1). assert (H2 : B2R (f64_cst L2) = 2) by (rewrite E2; cbn; lra). assert (HH : B2R (f64_cst Lhalf) = / 2) by (rewrite EH; cbn; lra).
  split.
  - set (g := f64_lit 4953959590107546 (-51)). destruct (f64_lit_exact 4953959590107546 (-51) ltac:(lia) ltac:(lia)) as (VG & FG). fold g in VG, FG.
    change (bpow radix2 (-51)) with (/ IZR (2 ^ 51)) in VG. change (2 ^ 51)%Z with 2251799813685248%Z in VG.
    destruct (C114_gamma ideal_pow lg ex ideal_accurate e g FG ltac:(lra)) as (g' & S & H).
    exists g, g'. split; [apply Rabs_le; lra|]. split; [exact S|]. split.
    + unfold stored in S. assert (W : f64_to_s15f16 g = 144179%Z) by (vm_compute; reflexivity). rewrite W in S.
      destruct (C14_decoding_is_exact e 144179 ltac:(lia) ltac:(lia)) as (v & E & _ & V). congruence.
    + destruct (H (f64_cst Lhalf) FH ltac:(lra)) as (y & y' & _ & E & (_ & N) & _). exists y'. split; [exact E|]. rewrite HH in N.
      eapply Rle_trans; [exact N|]. assert (/ (262144 * B2R g) <= / 524288) by (apply Rinv_le; lra). change (2 ^ 50)%Z with 1125899906842624%Z. lra.
  - destruct (C114_offset_curves ideal_pow lg ex ideal_accurate e (f64_cst L2) (f64_cst Lhalf) (f64_cst Lhalf) (Bopp (f64_cst L1)) F2 ltac:(lra) FH ltac:(lra) FH ltac:(lra) ltac:(lra))
      as (g' & a' & b' & c' & SG & SA & SB & SC & H).
    { unfold finite. now rewrite is_finite_Bopp. }
    { rewrite B2R_Bopp, Rabs_Ropp, E1, Rabs_pos_eq; lra. }
    exists g', a', b', c'. do 4 (split; [assumption|]).
    destruct (proj2 (H (f64_cst L1) F1 ltac:(rewrite E1; lra) ltac:(rewrite E1, HH; lra)) 3%Z (or_introl eq_refl)) as (y & E & _ & N).
    exists y. split; [exact E|]. rewrite HH, E1, H2, B2R_Bopp, E1 in N. replace (/ 2 * 1 + / 2) with 1 in N by lra.
    unfold Rpower in N. rewrite ln_1, Rmult_0_r, exp_0 in N. unfold half_step in N. replace (B2R y) with (B2R y - (1 + - (1))) by ring. lra.
Qed.
