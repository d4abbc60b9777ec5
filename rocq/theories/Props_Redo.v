(** C111: exactly which values a parametric curve gives back after its reverse, for all parameters. *)
From Coq Require Import Reals Lra ZArith.
From Verif Require Import M_Base M_Curve M_CurveReal S_Curve S_Jump S_Undo P_Curve P_Redo.
Open Scope R_scope.

(** The values given back are the values of the inputs recovered (C110). *)
Theorem C111_image : forall t ps y, undoes (- t) ps y <-> exists x, undoes t ps x /\ eval_real t ps x = Some (Fin y).
Proof. exact image. Qed.
Print Assumptions C111_image.

Theorem C111_type1 : forall g y,
  undoes (-1) [g] y <->
  (Rabs g < tol /\ y = power (10 ^ 22) g) \/ (tol <= Rabs g /\ (0 < y \/ (y = 0 /\ 0 < g))) \/ (y < 0 /\ Rabs (g - 1) < tol).
Proof. exact redo1. Qed.
Print Assumptions C111_type1.
Example C111_type1_cases : undoes (-1) [-2] 3 /\ ~ undoes (-1) [-2] 0 /\ undoes (-1) [1] (-3) /\ ~ undoes (-1) [2] (-3).
Proof.
  rewrite !C111_type1. unfold tol. rewrite (Rabs_left (-2)), (Rabs_right 1), (Rabs_right 2) by lra. unfold Rabs. destruct (Rcase_abs (1 - 1)), (Rcase_abs (2 - 1)), (Rcase_abs (-2 - 1)); lra.
Qed.

Theorem C111_type2 : forall g a b y,
  undoes (-2) [g; a; b] y <->
  (~ usable g a /\ ((tol <= a /\ 0 < b /\ y = power b g) \/ ((a < tol \/ b <= 0) /\ y = 0))) \/
  (usable g a /\ ((0 < y /\ 0 < a /\ b <= power y (1 / g)) \/ (y = 0 /\ (a < 0 \/ (0 < g /\ b <= 0))))).
Proof. exact redo2. Qed.
Print Assumptions C111_type2.
(** The values below the one at 0 are not given back. *)
Example C111_type2_offset : forall y, undoes (-2) [1; 1; 1 / 2] y <-> 1 / 2 <= y.
Proof.
  intros y. rewrite C111_type2. assert (U : usable 1 1) by (unfold usable, tol; rewrite !Rabs_right by lra; lra). replace (1 / 1) with 1 by lra. split.
  - intros [(H & _)|(_ & [(Y & _ & H)|H])]; [contradiction|rewrite power_1 in H; lra|lra].
  - intros H. right. split; [exact U|]. left. rewrite power_1 by lra. lra.
Qed.

Theorem C111_type3 : forall g a b c y,
  undoes (-3) [g; a; b; c] y <->
  (Rabs a < tol /\ y = 0) \/
  (tol <= Rabs a /\
   ((c < y /\ 0 < a /\ ((g <> 0 /\ b <= power (y - c) (1 / g)) \/ (g = 0 /\ y = c + 1 /\ b <= 1))) \/
    (y = c /\ (0 < - b / a \/ (c = 0 /\ b <= 0))) \/
    (y = 0 /\ 0 <= - b / a /\ (0 < c \/ (g = 0 /\ -1 < c < 0))))).
Proof. exact redo3. Qed.
Print Assumptions C111_type3.
Example C111_type3_gap : forall y, undoes (-3) [1; 1; -1; 2] y <-> 2 <= y \/ y = 0.
Proof.
  intros y. rewrite C111_type3. rewrite Rabs_right by lra. unfold tol. replace (- -1 / 1) with 1 by lra. replace (1 / 1) with 1 by lra. split.
  - intros [H|(_ & [H|[H|H]])]; lra.
  - intros H. right. split; [lra|]. destruct H as [[H|H]|H]; [|right; left; lra|right; right; lra]. left. split; [exact H|]. split; [lra|]. left. split; [lra|]. rewrite power_1; lra.
Qed.

Theorem C111_type4 : forall g a b c d y, tol <= g -> tol <= a -> tol <= c ->
  (undoes (-4) [g; a; b; c; d] y <-> break_value g a b d <= y \/ (y < break_value g a b d /\ y < c * d)).
Proof. exact redo4. Qed.
Print Assumptions C111_type4.
(** A curve that jumps up at its break: the values jumped over are not given back. *)
Example C111_type4_jump : forall y, undoes (-4) [1; 1; 0; 1 / 2; 1] y <-> y < 1 / 2 \/ 1 <= y.
Proof.
  intros y. rewrite C111_type4 by (unfold tol; lra). unfold break_value. rewrite Rmax_right by lra. rewrite power_1 by lra. lra.
Qed.

Theorem C111_type5 : forall g a b c d e f y, tol <= g -> tol <= a -> tol <= c ->
  (undoes (-5) [g; a; b; c; d; e; f] y <-> y < c * d + f \/ (c * d + f <= y /\ e <= y /\ a * d + b <= power (y - e) (1 / g))).
Proof. exact redo5. Qed.
Print Assumptions C111_type5.
Example C111_type5_jump : forall y, undoes (-5) [1; 1; 0; 1; 1; 1 / 2; 0] y <-> y < 1 \/ 3 / 2 <= y.
Proof.
  intros y. rewrite C111_type5 by (unfold tol; lra). replace (1 / 1) with 1 by lra. split; [intros [H|(H & P & Q)]; [left; lra|right]|intros [H|H]; [left; lra|right]].
  - rewrite power_1 in Q by lra. lra.
  - split; [lra|]. split; [lra|]. rewrite power_1; lra.
Qed.

Theorem C111_type6 : forall g a b c y,
  undoes (-6) [g; a; b; c] y <->
  (Rabs a < tol /\ ((b < 0 /\ y = c) \/ (0 < b /\ y = power b g + c) \/ (b = 0 /\ ((0 < g /\ y = c) \/ (g = 0 /\ y = 1 + c))))) \/
  (tol <= Rabs a /\ ((y = c /\ 0 < g) \/ (c < y /\ (g <> 0 \/ y = 1 + c)))).
Proof. exact redo6. Qed.
Print Assumptions C111_type6.
Example C111_type6_case : forall y, undoes (-6) [2; -3; 1; 5] y <-> 5 <= y.
Proof.
  intros y. rewrite C111_type6. rewrite Rabs_left by lra. unfold tol. split; [intros [H|(_ & [H|H])]; lra|].
  intros [H|H]; right; (split; [lra|]); [right; split; [exact H|left; lra]|left; lra].
Qed.

Theorem C111_type7 : forall g a b c d y, tol <= g -> tol <= a -> tol <= b ->
  (undoes (-7) [g; a; b; c; d] y <-> c <= Rpower 10 ((y - d) / a) \/ g = 1).
Proof. exact redo7. Qed.
Print Assumptions C111_type7.
Theorem C111_type7_otherwise : forall g a b c d y, g < tol \/ a < tol \/ b < tol ->
  (undoes (-7) [g; a; b; c; d] y <->
   (0 < g /\ ((0 < c /\ y = a * log_10 c + d) \/ (c <= 0 /\ y = d))) \/
   (g = 0 /\ ((0 < b + c /\ y = a * log_10 (b + c) + d) \/ (b + c <= 0 /\ y = d))) \/
   (g < 0 /\ b < 0 /\ y = d)).
Proof. exact redo7_tiny. Qed.
Print Assumptions C111_type7_otherwise.
Example C111_type7_cases : (forall y, undoes (-7) [2; 1; 1; -1; 0] y) /\ (forall y, undoes (-7) [1; -1; 1; -1; 4] y <-> y = 4).
Proof.
  split; intros y.
  - rewrite C111_type7 by (unfold tol; lra). left. pose proof (exp_pos ((y - 0) / 1 * ln 10)). unfold Rpower. lra.
  - rewrite C111_type7_otherwise by (unfold tol; lra). lra.
Qed.

Theorem C111_type8 : forall a b c d e y,
  undoes (-8) [a; b; c; d; e] y <->
  ((y < e \/ ~ usable a c) /\ at_zero8 a b d e y) \/
  (e < y /\ usable a c /\ 0 < a /\ ((0 < b /\ b <> 1) \/ (b = 0 /\ y = a + e))).
Proof. exact redo8. Qed.
Print Assumptions C111_type8.
Example C111_type8_cases : (forall y, undoes (-8) [1; 2; 1; 0; 3] y <-> 3 < y) /\ (forall y, undoes (-8) [-1; 2; 1; 0; 3] y <-> y = 2).
Proof.
  assert (P : power 2 0 = 1) by (rewrite power_pos by lra; unfold Rpower; rewrite Rmult_0_l; apply exp_0). split; intros y; rewrite C111_type8; unfold at_zero8; rewrite P.
  - assert (U : usable 1 1) by (unfold usable, tol; rewrite !Rabs_right by lra; lra). split; [intros [([H|H] & [K|[K|(K & _)]])|H]; (contradiction || lra)|].
    intros H. right. split; [exact H|]. split; [exact U|]. split; [lra|]. left. lra.
  - split; [intros [(_ & [K|[K|(K & _)]])|H]; lra|]. intros ->. left. split; [left; lra|]. left. lra.
Qed.

Theorem C111_type108 : forall g y,
  undoes (-108) [g] y <->
  (Rabs g < tol /\ y = 0) \/
  (tol <= Rabs g /\ ((0 < g /\ 0 <= y <= 1) \/ (g < 0 /\ (1 < y \/ y = 0)) \/ g = 1 \/ (g = - (1) /\ y <> 1))).
Proof. exact redo108. Qed.
Print Assumptions C111_type108.
Example C111_type108_cases : undoes (-108) [-2] 3 /\ undoes (-108) [2] (1 / 2) /\ ~ undoes (-108) [2] 2.
Proof. rewrite !C111_type108. unfold tol. rewrite (Rabs_left (-2)), (Rabs_right 2) by lra. repeat split; lra. Qed.

Theorem C111_type109 : forall k y, undoes (-109) [k] y <-> k <> 0 /\ y = / 2.
Proof. exact redo109. Qed.
Print Assumptions C111_type109.

(** Types 4 and 5 for all parameters: on the branch below the break the reverse answers the point of the line
    (or 0 when [c] is tiny), above it the point of the power part (or 0); [y] survives iff it is the curve's value there. *)
Theorem C111_type4_all : forall g a b c d y,
  undoes (-4) [g; a; b; c; d] y <->
  (~ past_break g a b d y /\ ((Rabs c < tol /\ value4 g a b c d 0 y) \/ (tol <= Rabs c /\ value4 g a b c d (y / c) y))) \/
  (past_break g a b d y /\ ~ usable g a /\ value4 g a b c d 0 y) \/
  (past_break g a b d y /\ usable g a /\ (y = 0 -> 0 < g) /\
    (d <= (power y (1 / g) - b) / a \/ y = c * ((power y (1 / g) - b) / a))).
Proof. exact redo4_all. Qed.
Print Assumptions C111_type4_all.
Theorem C111_type5_all : forall g a b c d e f y,
  undoes (-5) [g; a; b; c; d; e; f] y <->
  (y < c * d + f /\ ((Rabs c < tol /\ value5 g a b c d e f 0 y) \/ (tol <= Rabs c /\ (0 < c \/ value5 g a b c d e f ((y - f) / c) y)))) \/
  (c * d + f <= y /\ (y < e \/ ~ usable g a) /\ value5 g a b c d e f 0 y) \/
  (c * d + f <= y /\ e <= y /\ usable g a /\ (y = e -> 0 < g) /\
    (d <= (power (y - e) (1 / g) - b) / a \/ y = c * ((power (y - e) (1 / g) - b) / a) + f)).
Proof. exact redo5_all. Qed.
Print Assumptions C111_type5_all.
(** A falling line before the break: of its values only 0, which the power part reaches too, is given back. *)
Example C111_type5_falling : forall y, undoes (-5) [1; 1; 0; -1; 1; 0; 0] y <-> 1 <= y \/ y = 0.
Proof.
  intros y. rewrite C111_type5_all. assert (U : usable 1 1) by (unfold usable, tol; rewrite !Rabs_right by lra; lra).
  rewrite Rabs_left by lra. unfold value5, tol. replace (1 / 1) with 1 by lra. replace ((y - 0) / -1) with (- y) by lra. replace (1 * - y + 0) with (- y) by ring. replace (y - 0) with y by ring. split.
  - intros [(Y & [H|(_ & [H|[H|(L & [(P & K)|H])]])])|[(Y & [H|H] & V)|(Y & Z & _ & _ & K)]]; try lra; try contradiction.
    + rewrite power_1 in K by lra. lra.
    + rewrite power_1 in K by lra. lra.
  - intros [Y|Y]; right; right; (split; [lra|]); (split; [lra|]); (split; [exact U|]); (split; [intros; lra|]); rewrite power_1 by lra; lra.
Qed.
(** An exponent too small to take a root of: only the values of the line are given back. *)
Example C111_type4_tiny : forall y, undoes (-4) [0; 1; 0; 1; 1] y <-> y < 1.
Proof.
  intros y. rewrite C111_type4_all. assert (U : ~ usable 0 1) by (unfold usable, tol; rewrite Rabs_R0; lra).
  rewrite Rabs_right by lra. unfold value4, past_break, tol. replace (y / 1) with y by lra.
  assert (P : power (1 * 1 + 0) 0 = 1) by (rewrite power_pos by lra; unfold Rpower; rewrite Rmult_0_l; apply exp_0). rewrite P.
  split; [intros [(N & H)|[(N & _ & H)|(_ & H & _)]]; (contradiction || lra)|]. intros H. left. split; [lra|]. right. split; [lra|]. left. lra.
Qed.
