(** C115: the direction of every curve and every reverse, in exact arithmetic.  [goes s t ps D]: on the inputs in D the values are numbers
    and rise strictly if s > 0, fall strictly if s < 0. *)
From Coq Require Import ZArith Reals Lra List.
From Verif Require Import M_Base M_Curve M_CurveReal S_Curve S_Direction P_Curve P_Direction.
From Verif Require S_Curve2 Props_Curve2.
Import ListNotations.
Open Scope R_scope.

Theorem C115_type1 : forall g, g <> 0 -> goes g 1 [g] (fun x => 0 < x).
Proof. exact dir1. Qed.
Print Assumptions C115_type1.
Theorem C115_type1_reversed : forall g, tol <= Rabs g -> goes g (-1) [g] (fun y => 0 < y).
Proof. exact back1. Qed.
Print Assumptions C115_type1_reversed.

Theorem C115_type2 : forall g a b, tol <= a -> g <> 0 -> goes g 2 [g; a; b] (fun x => 0 < a * x + b).
Proof. exact dir2. Qed.
Print Assumptions C115_type2.
Theorem C115_type2_reversed : forall g a b, tol <= Rabs g -> tol <= a -> goes g (-2) [g; a; b] (fun y => 0 < y /\ b <= power y (1 / g)).
Proof. exact back2. Qed.
Print Assumptions C115_type2_reversed.

Theorem C115_type3 : forall g a b c, tol <= a -> g <> 0 -> goes g 3 [g; a; b; c] (fun x => 0 <= x /\ 0 < a * x + b).
Proof. exact dir3. Qed.
Print Assumptions C115_type3.
Theorem C115_type3_reversed : forall g a b c, g <> 0 -> tol <= a -> goes g (-3) [g; a; b; c] (fun y => c < y /\ b <= power (y - c) (1 / g)).
Proof. exact back3. Qed.
Print Assumptions C115_type3_reversed.

(** Types 4 and 5: each part, and the whole if the curve does not step down at the break. *)
Theorem C115_type4_parts : forall g a b c d,
  (g <> 0 -> a <> 0 -> goes (g * a) 4 [g; a; b; c; d] (fun x => d <= x /\ 0 < a * x + b)) /\
  (c <> 0 -> goes c 4 [g; a; b; c; d] (fun x => x < d)).
Proof. exact (fun g a b c d => conj (fun G A => goes_4_5 _ _ _ _ _ _ _ (dir5_power g a b c d 0 0 G A)) (fun C => goes_4_5 _ _ _ _ _ _ _ (dir5_line g a b c d 0 0 C))). Qed.
Print Assumptions C115_type4_parts.
Theorem C115_type4_reversed : forall g a b c d, tol <= g -> tol <= a -> tol <= c -> 0 <= a * d + b -> c * d <= break_value g a b d ->
  goes 1 (-4) [g; a; b; c; d] (fun y => y < c * d \/ break_value g a b d <= y).
Proof. exact back4. Qed.
Print Assumptions C115_type4_reversed.
Theorem C115_type5_parts : forall g a b c d e f,
  (g <> 0 -> a <> 0 -> goes (g * a) 5 [g; a; b; c; d; e; f] (fun x => d <= x /\ 0 < a * x + b)) /\
  (c <> 0 -> goes c 5 [g; a; b; c; d; e; f] (fun x => x < d)).
Proof. exact (fun g a b c d e f => conj (dir5_power g a b c d e f) (dir5_line g a b c d e f)). Qed.
Print Assumptions C115_type5_parts.
Theorem C115_type5 : forall g a b c d e f, 0 < g -> 0 < a -> 0 < c -> 0 <= a * d + b -> c * d + f <= break_value g a b d + e ->
  goes 1 5 [g; a; b; c; d; e; f] (fun _ => True).
Proof. exact dir5. Qed.
Print Assumptions C115_type5.
Theorem C115_type5_reversed : forall g a b c d e f, tol <= g -> tol <= a -> tol <= c -> 0 <= a * d + b -> c * d + f <= break_value g a b d + e ->
  goes 1 (-5) [g; a; b; c; d; e; f] (fun y => y < c * d + f \/ break_value g a b d + e <= y).
Proof. exact back5. Qed.
Print Assumptions C115_type5_reversed.

Theorem C115_type6 : forall g a b c, g <> 0 -> a <> 0 -> goes (g * a) 6 [g; a; b; c] (fun x => 0 < a * x + b).
Proof. exact dir6. Qed.
Print Assumptions C115_type6.
Theorem C115_type6_reversed : forall g a b c, 0 < g -> tol <= Rabs a -> goes a (-6) [g; a; b; c] (fun y => c < y).
Proof. exact back6. Qed.
Print Assumptions C115_type6_reversed.

Theorem C115_type7 : forall g a b c d, g <> 0 -> a <> 0 -> b <> 0 -> goes (g * a * b) 7 [g; a; b; c; d] (fun x => 0 < x /\ 0 < b * power x g + c).
Proof. exact dir7. Qed.
Print Assumptions C115_type7.
Theorem C115_type7_reversed : forall g a b c d, tol <= g -> tol <= a -> tol <= b -> goes 1 (-7) [g; a; b; c; d] (fun y => c <= power 10 ((y - d) / a)).
Proof. exact back7. Qed.
Print Assumptions C115_type7_reversed.

Theorem C115_type8 : forall a b c d e, 0 < b -> a * c * ln b <> 0 -> goes (a * c * ln b) 8 [a; b; c; d; e] (fun _ => True).
Proof. exact dir8. Qed.
Print Assumptions C115_type8.
Theorem C115_type8_reversed : forall a b c d e, tol <= a -> 0 < b -> b <> 1 -> tol <= Rabs c -> goes (c * ln b) (-8) [a; b; c; d; e] (fun y => e < y).
Proof. exact back8. Qed.
Print Assumptions C115_type8_reversed.

(** Forward, types 108 and 109 rise (C63); so do their reverses, -109 although it is not the inverse. *)
Theorem C115_type108_reversed : forall g, tol <= g -> goes 1 (-108) [g] (fun y => 0 <= y <= 1).
Proof. exact back108. Qed.
Print Assumptions C115_type108_reversed.
Theorem C115_type109_reversed : forall k, k <> 0 -> goes 1 (-109) [k] (fun y => exists x, y = sigmoid k x).
Proof. exact back109. Qed.
Print Assumptions C115_type109_reversed.

(** The condition at the break is necessary too. *)
Theorem C115_type4_iff : forall g a b c d, 0 < g -> 0 < a -> 0 < c -> 0 <= a * d + b ->
  (goes 1 4 [g; a; b; c; d] (fun _ => True) <-> c * d <= break_value g a b d).
Proof. exact dir4_iff. Qed.
Print Assumptions C115_type4_iff.
Theorem C115_type5_iff : forall g a b c d e f, 0 < g -> 0 < a -> 0 < c -> 0 <= a * d + b ->
  (goes 1 5 [g; a; b; c; d; e; f] (fun _ => True) <-> c * d + f <= break_value g a b d + e).
Proof. exact dir5_iff. Qed.
Print Assumptions C115_type5_iff.

(** A curve that steps down at its break is not monotone: x^2 from 1 on, 3 x below. *)
Theorem C115_stepping_down_refuted : exists g a b c d, tol <= g /\ tol <= a /\ tol <= c /\ 0 <= a * d + b /\ ~ goes 1 4 [g; a; b; c; d] (fun _ => True).
Proof.
  exists 2, 1, 0, 3, 1. pose proof tol_pos as T. unfold tol in *. repeat split; try lra. intros H. destruct (H (1 / 2) 1 I I ltac:(lra)) as (y & y' & E & E' & S).
  rewrite Props_Curve2.C72_type4 in E, E'. unfold S_Curve2.icc4 in E, E'.
  destruct (Rlt_dec (1 / 2) 1); [|lra]. destruct (Rle_dec 1 (1 / 2)); [lra|]. destruct (Rlt_dec 1 1); [lra|]. destruct (Rlt_dec (1 * 1 + 0) 0); [lra|]. destruct (Rle_dec 1 1); [|lra].
  injection E as <-. injection E' as <-. replace (1 * 1 + 0) with 1 in S by lra. rewrite power_pos in S by lra. unfold Rpower in S. rewrite ln_1, Rmult_0_r, exp_0 in S. lra.
Qed.
Print Assumptions C115_stepping_down_refuted.

(** Cases: 1/x falls, 2^-x falls, log10 rises, (3 - x)^2 falls before 3. *)
Example C115_cases :
  goes (-1) 1 [-1] (fun x => 0 < x) /\ goes (1 * -1 * ln 2) 8 [1; 2; -1; 0; 0] (fun _ => True) /\
  goes (1 * 1 * 1) 7 [1; 1; 1; 0; 0] (fun x => 0 < x /\ 0 < 1 * power x 1 + 0) /\ goes (2 * -1) 6 [2; -1; 3; 0] (fun x => 0 < -1 * x + 3) /\
  1 * -1 * ln 2 < 0.
Proof.
  assert (L : 0 < ln 2) by (rewrite <- ln_1; apply ln_increasing; lra).
  repeat split; [apply C115_type1|apply C115_type8|apply C115_type7|apply C115_type6|]; lra.
Qed.
