(** C110: exactly where the reverse of a parametric curve takes a value back, for all parameters. *)
From Coq Require Import Reals Lra ZArith.
From Verif Require Import M_Base M_Curve M_CurveReal S_Curve S_Jump S_Undo P_Curve P_Undo.
Open Scope R_scope.

Theorem C110_type1 : forall g r,
  undoes 1 [g] r <-> (0 < r /\ (tol <= Rabs g \/ r = 10 ^ 22)) \/ (r = 0 /\ tol <= g) \/ (r < 0 /\ Rabs (g - 1) < tol).
Proof. exact undo1. Qed.
Print Assumptions C110_type1.
Example C110_type1_cases : undoes 1 [1] (-3) /\ ~ undoes 1 [1 / 2] (-3) /\ undoes 1 [1 / 2] 3.
Proof.
  rewrite !C110_type1. unfold tol. split; [right; right; split; [lra|unfold Rabs; destruct (Rcase_abs (1 - 1)); lra]|]. split.
  - intros [H|[H|(_ & H)]]; [lra|lra|]. unfold Rabs in H. destruct (Rcase_abs (1 / 2 - 1)); lra.
  - left. split; [lra|]. left. rewrite Rabs_right; lra.
Qed.

Theorem C110_type2 : forall g a b r,
  undoes 2 [g; a; b] r <->
  (~ usable g a /\ r = 0) \/
  (usable g a /\
   ((0 < a /\ 0 < a * r + b /\ 0 <= r) \/
    ((a < 0 \/ a * r + b <= 0) /\ ((0 < g /\ r = Rmax 0 (- b / a)) \/ (g < 0 /\ a < 0 /\ r = 0))))).
Proof. exact undo2. Qed.
Print Assumptions C110_type2.
Example C110_type2_flat : forall r, undoes 2 [2; 1; -1] r <-> 1 <= r.
Proof.
  intros r. rewrite C110_type2. assert (U : usable 2 1) by (unfold usable, tol; rewrite !Rabs_right by lra; lra).
  replace (- -1 / 1) with 1 by lra. rewrite Rmax_right by lra. split.
  - intros [(H & _)|(_ & H)]; [contradiction|lra].
  - intros H. right. split; [exact U|]. destruct (Req_dec r 1) as [->|N]; [right; lra|left; lra].
Qed.

Theorem C110_type3 : forall g a b c r,
  undoes 3 [g; a; b; c] r <->
  (Rabs a < tol /\ r = 0) \/
  (tol <= Rabs a /\
   ((r < Rmax (- b / a) 0 /\ r = 0) \/
    (Rmax (- b / a) 0 <= r /\
     ((0 < a * r + b /\ (g <> 0 \/ a * r + b = 1)) \/
      (a * r + b <= 0 /\ ((c = 0 /\ r = 0) \/ (a * r + b = 0 /\ (0 < c \/ (g = 0 /\ -1 < c < 0))))))))).
Proof. exact undo3. Qed.
Print Assumptions C110_type3.
Example C110_type3_start : forall r, undoes 3 [2; 1; 0; - (1 / 2)] r <-> 0 < r.
Proof.
  intros r. rewrite C110_type3. replace (- 0 / 1) with 0 by lra. rewrite Rmax_left by lra. rewrite Rabs_right by lra. unfold tol. split; [intros [H|(_ & [H|(_ & [H|H])])]; lra|].
  intros H. right. split; [lra|]. right. split; [lra|]. left. split; [lra|]. left. lra.
Qed.

Theorem C110_type4 : forall g a b c d r,
  undoes 4 [g; a; b; c; d] r <->
  exists y, ((r < d /\ y = c * r) \/ (d <= r /\ 0 < a * r + b /\ y = power (a * r + b) g) \/ (d <= r /\ a * r + b <= 0 /\ y = 0)) /\
    ((past_break g a b d y /\ ((~ usable g a /\ r = 0) \/ (usable g a /\ on_power g a b r y))) \/
     (~ past_break g a b d y /\ ((Rabs c < tol /\ r = 0) \/ (tol <= Rabs c /\ y = c * r)))).
Proof. exact undo4_all. Qed.
Print Assumptions C110_type4.
Theorem C110_type4_usual : forall g a b c d r, tol <= g -> tol <= a -> tol <= c ->
  (undoes 4 [g; a; b; c; d] r <-> (r < d /\ c * r < break_value g a b d) \/ (d <= r /\ 0 <= a * r + b)).
Proof. exact undo4. Qed.
Print Assumptions C110_type4_usual.
(** A line that climbs past the start of the power part: what lies above it is lost. *)
Example C110_type4_steep : forall r, undoes 4 [1; 1; 0; 2; 1] r <-> r < 1 / 2 \/ 1 <= r.
Proof.
  intros r. rewrite C110_type4_usual by (unfold tol; lra). unfold break_value. rewrite Rmax_right by lra. replace (power (1 * 1 + 0) 1) with 1; [lra|].
  symmetry. rewrite power_1 by lra. ring.
Qed.
(** A falling line is taken back while its values stay below the start of the power part. *)
Example C110_type4_falling : undoes 4 [1; 1; 2; -1; 0] (-1).
Proof.
  apply C110_type4. exists 1. split; [left; lra|]. right. split.
  - unfold past_break. replace (1 * 0 + 2) with 2 by ring. rewrite power_1 by lra. lra.
  - right. split; [unfold tol; rewrite Rabs_left; lra|lra].
Qed.

Theorem C110_type5 : forall g a b c d e f r,
  undoes 5 [g; a; b; c; d; e; f] r <->
  (r < d /\ 0 < c /\ (tol <= c \/ r = 0)) \/
  (r < d /\ c <= 0 /\ ((r = 0 /\ (f < e \/ ~ usable g a)) \/ (usable g a /\ on_power g a b r (c * r + f - e)))) \/
  (d <= r /\ exists y, ((0 < a * r + b /\ y = power (a * r + b) g + e) \/ (a * r + b <= 0 /\ y = e)) /\
    ((c * d + f <= y /\ ((~ usable g a /\ r = 0) \/ (usable g a /\ on_power g a b r (y - e)))) \/
     (y < c * d + f /\ ((Rabs c < tol /\ r = 0) \/ (tol <= Rabs c /\ y = c * r + f))))).
Proof. exact undo5_all. Qed.
Print Assumptions C110_type5.
Theorem C110_type5_usual : forall g a b c d e f r, tol <= g -> tol <= a -> tol <= c ->
  (undoes 5 [g; a; b; c; d; e; f] r <-> r < d \/ (0 <= a * r + b /\ c * d + f <= power (a * r + b) g + e)).
Proof. exact undo5. Qed.
Print Assumptions C110_type5_usual.
Example C110_type5_drop : forall r, undoes 5 [1; 1; 0; 1; 1; - (1 / 2); 0] r <-> r < 1 \/ 3 / 2 <= r.
Proof.
  intros r. rewrite C110_type5_usual by (unfold tol; lra). split; [intros [H|(H & P)]; [now left|right]|intros [H|H]; [now left|right]].
  - rewrite power_1 in P by lra. lra.
  - split; [lra|]. rewrite power_1 by lra. lra.
Qed.

Theorem C110_type6 : forall g a b c r,
  undoes 6 [g; a; b; c] r <->
  (Rabs a < tol /\ r = 0 /\ (b = 0 -> 0 <= g)) \/
  (tol <= Rabs a /\ ((a * r + b = 0 /\ 0 < g) \/ (0 < a * r + b /\ (g <> 0 \/ a * r + b = 1)))).
Proof. exact undo6. Qed.
Print Assumptions C110_type6.
Example C110_type6_falling : forall r, undoes 6 [2; -1; 1; 0] r <-> r <= 1.
Proof.
  intros r. rewrite C110_type6. rewrite Rabs_left by lra. unfold tol. split; [intros [H|(_ & [H|H])]; lra|].
  intros H. right. split; [lra|]. destruct (Req_dec r 1) as [->|N]; [left; lra|right; split; [lra|left; lra]].
Qed.

Theorem C110_type7 : forall g a b c d r, tol <= g -> tol <= a -> tol <= b ->
  (undoes 7 [g; a; b; c; d] r <-> (0 <= r /\ 0 < b * power r g + c) \/ (g = 1 /\ r < 0 /\ 0 < b * r + c)).
Proof. exact undo7. Qed.
Print Assumptions C110_type7.
Theorem C110_type7_otherwise : forall g a b c d r, g < tol \/ a < tol \/ b < tol ->
  (undoes 7 [g; a; b; c; d] r <-> r = 0 /\ (0 <= g \/ b < 0)).
Proof. exact undo7_tiny. Qed.
Print Assumptions C110_type7_otherwise.
Example C110_type7_cases : (forall r, undoes 7 [1; 1; 1; 2; 0] r <-> -2 < r) /\ (forall r, undoes 7 [1; -1; 1; 2; 0] r <-> r = 0).
Proof.
  split; intros r.
  - rewrite C110_type7 by (unfold tol; lra). destruct (Rlt_dec r 0) as [N|N]; [lra|]. rewrite power_1 by lra. lra.
  - rewrite C110_type7_otherwise by (unfold tol; lra). lra.
Qed.

Theorem C110_type8 : forall a b c d e r,
  undoes 8 [a; b; c; d; e] r <->
  (~ usable a c /\ r = 0 /\ (0 < b \/ (b = 0 /\ 0 <= d) \/ (b < 0 /\ whole d))) \/
  (usable a c /\
   ((0 < b /\ ((0 < a /\ b <> 1) \/ (a < 0 /\ r = 0))) \/
    (b = 0 /\ c * r + d = 0 /\ (0 < a \/ r = 0)) \/
    (b < 0 /\ r = 0 /\ exists n, d = IZR n /\ (if Z.even n then a < 0 else 0 < a)))).
Proof. exact undo8. Qed.
Print Assumptions C110_type8.
Example C110_type8_cases : (forall r, undoes 8 [1; 2; 1; 0; 0] r) /\ (forall r, undoes 8 [-1; 2; 1; 0; 0] r <-> r = 0).
Proof.
  split; intros r; rewrite C110_type8.
  - right. split; [unfold usable, tol; rewrite !Rabs_right by lra; lra|]. left. split; [lra|]. left. lra.
  - assert (U : usable (-1) 1) by (unfold usable, tol; rewrite Rabs_left, Rabs_right by lra; lra). split; [intros [(H & _)|(_ & [(_ & H)|[H|(H & _)]])]; (contradiction || lra)|].
    intros ->. right. split; [exact U|]. left. lra.
Qed.

Theorem C110_type108 : forall g r,
  undoes 108 [g] r <->
  (Rabs g < tol /\ ((0 <= g /\ r = 0) \/ (g < 0 /\ r = 1))) \/
  (tol <= Rabs g /\ ((0 < g /\ 0 <= r <= 1) \/ (g < 0 /\ (r < 0 \/ r = 1)) \/ g = 1 \/ (g = - (1) /\ r <> 0))).
Proof. exact undo108. Qed.
Print Assumptions C110_type108.
Example C110_type108_cases : undoes 108 [-2] (-3) /\ undoes 108 [2] (1 / 2) /\ ~ undoes 108 [2] 2 /\ undoes 108 [1] 2.
Proof.
  rewrite !C110_type108. unfold tol. rewrite (Rabs_left (-2)), (Rabs_right 2), (Rabs_right 1) by lra. repeat split; lra.
Qed.

Theorem C110_type109 : forall k r, undoes 109 [k] r <-> k <> 0 /\ r = / 2.
Proof. exact undo109. Qed.
Print Assumptions C110_type109.
