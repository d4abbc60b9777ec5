(** C72-C74: the parametric curves compute the ICC formulas, are right inverses, and stay in range.
    [eval_real t params r = Some (Fin y)]: the evaluator returns the number y. *)
From Coq Require Import Reals Lra.
From Verif Require Import M_Base M_Curve M_CurveReal S_Curve S_Curve2 P_Curve P_Curve2 P_Formula Props_Curve.
Open Scope R_scope.

(** C72.  Where the computed curve is the formula of the ICC specification, and what it is elsewhere. *)
Theorem C72_type1 : forall g x, 0 < x \/ (x = 0 /\ 0 < g) -> eval_real 1 [g] x = Some (Fin (icc1 g x)).
Proof. exact type1_any. Qed.
Print Assumptions C72_type1.

Theorem C72_type2 :
  forall g a b x,
    tol <= a -> eval_real 2 [g; a; b] x = Some (Fin (icc2 g a b x)).
Proof. exact type2_any. Qed.
Print Assumptions C72_type2.

Theorem C72_type2_negative_slope :
  forall g a b x,
    a <= - tol -> eval_real 2 [g; a; b] x = Some (Fin 0).
Proof. exact type2_negative_slope. Qed.
Print Assumptions C72_type2_negative_slope.

Theorem C72_tiny_slope :
  forall g a b c x,
    Rabs a < tol -> eval_real 2 [g; a; b] x = Some (Fin 0) /\ eval_real 3 [g; a; b; c] x = Some (Fin 0).
Proof. exact tiny_slope. Qed.
Print Assumptions C72_tiny_slope.

Theorem C72_type3 :
  forall g a b c x,
    tol <= a ->
  eval_real 3 [g; a; b; c] x =
  Some (Fin (if Rlt_dec x 0 then c else if Rlt_dec x (- b / a) then c
             else if Req_EM_T x (- b / a) then 0 else power (a * x + b) g + c)).
Proof. exact type3_any. Qed.
Print Assumptions C72_type3.

Theorem C72_type3_negative_slope :
  forall g a b c x,
    a <= - tol ->
  eval_real 3 [g; a; b; c] x = Some (Fin (if Rlt_dec x (Rmax (- b / a) 0) then c else 0)).
Proof. exact type3_negative_slope. Qed.
Print Assumptions C72_type3_negative_slope.

Theorem C72_type3_conforms_iff :
  forall g a b c x,
    tol <= a ->
  (eval_real 3 [g; a; b; c] x = Some (Fin (icc3 g a b c x)) <->
   ~ (- b / a < x < 0) /\ (x = - b / a -> 0 <= x -> c = 0)).
Proof. exact type3_conforms_any. Qed.
Print Assumptions C72_type3_conforms_iff.

Theorem C72_type4 :
  forall g a b c d x,
  eval_real 4 [g; a; b; c; d] x =
    Some (Fin (if Rlt_dec x d then icc4 g a b c d x else if Rlt_dec (a * x + b) 0 then 0 else icc4 g a b c d x)).
Proof. exact type4_any. Qed.
Print Assumptions C72_type4.

Theorem C72_type5 :
  forall g a b c d e f x,
  eval_real 5 [g; a; b; c; d; e; f] x =
    Some (Fin (if Rlt_dec x d then icc5 g a b c d e f x else if Rlt_dec (a * x + b) 0 then e else icc5 g a b c d e f x)).
Proof. exact type5_any. Qed.
Print Assumptions C72_type5.

Theorem C72_type6 :
  forall g a b c x,
    0 < g \/ a * x + b <> 0 ->
  eval_real 6 [g; a; b; c] x = Some (Fin (if Rlt_dec (a * x + b) 0 then c else icc6 g a b c x)).
Proof. exact type6_any. Qed.
Print Assumptions C72_type6.

Theorem C72_type7 :
  forall g a b c d x,
    0 < x \/ (x = 0 /\ 0 < g) ->
  eval_real 7 [g; a; b; c; d] x = Some (Fin (if Rle_dec (b * power x g + c) 0 then d else icc7 g a b c d x)).
Proof. exact type7_any. Qed.
Print Assumptions C72_type7.

(** Negative inputs of type 7, the one type that takes a power of its input unchecked. *)
Theorem C72_type7_negative_input :
  forall a b c d x n,
    x < 0 -> n <> 0%Z ->
  eval_real 7 [IZR n; a; b; c; d] x =
  Some (Fin (if Rle_dec (b * powerRZ x n + c) 0 then d else a * log_10 (b * powerRZ x n + c) + d)).
Proof. exact type7_negative. Qed.
Print Assumptions C72_type7_negative_input.

Theorem C72_type7_not_real :
  forall g a b c d x,
    x < 0 -> (forall n, g <> IZR n) -> eval_real 7 [g; a; b; c; d] x = Some NaN.
Proof. exact type7_not_real. Qed.
Print Assumptions C72_type7_not_real.

(** The base 0 with an exponent that is not positive. *)
Theorem C72_zero_base :
  forall g a b c x, a * x + b = 0 ->
  (g < 0 -> eval_real 1 [g] 0 = Some PInf /\ eval_real 6 [g; a; b; c] x = Some PInf) /\
  (g = 0 -> eval_real 1 [g] 0 = Some (Fin 1) /\ eval_real 6 [g; a; b; c] x = Some (Fin (1 + c))).
Proof. exact zero_base. Qed.
Print Assumptions C72_zero_base.

Theorem C72_type8 :
  forall a b c d e x,
    0 < b \/ (b = 0 /\ 0 < c * x + d) -> eval_real 8 [a; b; c; d; e] x = Some (Fin (icc8 a b c d e x)).
Proof. exact type8_any. Qed.
Print Assumptions C72_type8.

Theorem C72_type5_generalises_type4 :
  forall g a b c d x,
    eval_real 5 [g; a; b; c; d; 0; 0] x = eval_real 4 [g; a; b; c; d] x.
Proof. exact type5_is_4_any. Qed.
Print Assumptions C72_type5_generalises_type4.

Theorem C72_type108 :
  forall g r,
    tol <= g -> 0 <= r <= 1 -> eval_real 108 [g] r = Some (Fin (s_curve g r)).
Proof. exact type108_val. Qed.
Print Assumptions C72_type108.

Theorem C72_type109 :
  forall k r,
    k <> 0 -> eval_real 109 [k] r = Some (Fin (sigmoid k r)).
Proof. exact type109_val. Qed.
Print Assumptions C72_type109.

(** Negative slopes: x <= -b/a is where the power lives, but the code gives 0 there too. *)
Theorem C72_negative_slope_refuted :
  exists g a b x, 0 < g /\ a <= - tol /\ 0 < a * x + b /\ eval_real 2 [g; a; b] x = Some (Fin 0) /\ power (a * x + b) g = 1.
Proof.
  exists 2, (-1), 1, 0. unfold tol. repeat split; try lra. apply type2_negative_slope. unfold tol. lra.
  replace (-1 * 0 + 1) with 1 by lra. apply power_1l.
Qed.
Print Assumptions C72_negative_slope_refuted.
(** Type 3 at its break is 0, not c. *)
Theorem C72_type3_at_the_break_refuted :
  exists g a b c x, 0 < g /\ tol <= a /\ icc3 g a b c x = 1 /\ eval_real 3 [g; a; b; c] x = Some (Fin 0).
Proof.
  exists 2, 1, 0, 1, 0. repeat split; unfold tol; try lra.
  - unfold icc3. destruct (Rle_dec (- 0 / 1) 0) as [|N]; [|exfalso; apply N; lra]. replace (1 * 0 + 0) with 0 by lra. rewrite power_0. lra.
  - rewrite type3_value by (unfold tol; lra). destruct (Rlt_dec 0 0); [lra|]. destruct (Rlt_dec 0 (- 0 / 1)); [lra|].
    destruct (Req_EM_T 0 (- 0 / 1)) as [|N]; [reflexivity|]. exfalso. apply N. lra.
Qed.
Print Assumptions C72_type3_at_the_break_refuted.

Lemma sq x : 0 <= x -> power x 2 = x * x.
Proof.
  intros [H| <-]; [|rewrite power_0; lra]. rewrite power_pos by exact H. replace 2 with (INR 2) by (cbn; lra).
  rewrite Rpower_pow by exact H. cbn. lra.
Qed.
Example C72_negative_exponents : eval_real 1 [-1] 4 = Some (Fin (/ 4)) /\ eval_real 7 [2; 1; 1; 1; 5] (-3) = Some (Fin 6).
Proof.
  split.
  - rewrite type1_any by lra. unfold icc1. rewrite power_pos by lra. replace (-1) with (- (1)) by ring. rewrite Rpower_Ropp, Rpower_1 by lra. reflexivity.
  - change 2 with (IZR 2). rewrite type7_negative by (lra || discriminate). replace (1 * powerRZ (-3) 2 + 1) with 10 by (simpl; ring).
    destruct (Rle_dec 10 0); [lra|]. unfold log_10. pose proof ln10_pos. do 2 f_equal. field. lra.
Qed.
Example C72_square_of_three : eval_real 1 [2] 3 = Some (Fin 9) /\ eval_real 2 [2; 1; 1] 2 = Some (Fin 9) /\ eval_real 6 [2; 2; 1; 5] 1 = Some (Fin 14).
Proof.
  repeat split.
  - rewrite C72_type1 by lra. unfold icc1. rewrite sq by lra. do 2 f_equal. lra.
  - rewrite C72_type2 by (unfold tol; lra). unfold icc2. destruct (Rle_dec (- (1) / 1) 2); [|lra]. rewrite sq by lra. do 2 f_equal. lra.
  - rewrite C72_type6 by lra. unfold icc6. destruct (Rlt_dec (2 * 1 + 1) 0); [lra|]. rewrite sq by lra. do 2 f_equal. lra.
Qed.

(** C73.  The reverse curve finds a preimage: forward after reverse is the identity. *)
Theorem C73_type1 :
  forall g y,
    tol <= Rabs g -> 0 < y \/ (y = 0 /\ 0 < g) ->
  exists x, eval_real (-1) [g] y = Some (Fin x) /\ x = power y (1 / g) /\ eval_real 1 [g] x = Some (Fin y).
Proof. exact type1_right. Qed.
Print Assumptions C73_type1.

Theorem C73_type2 :
  forall g a b y,
    tol <= Rabs g -> tol <= a -> 0 < y -> b <= power y (1 / g) ->
  exists x, eval_real (-2) [g; a; b] y = Some (Fin x) /\ x = (power y (1 / g) - b) / a /\ eval_real 2 [g; a; b] x = Some (Fin y).
Proof. exact type2_right. Qed.
Print Assumptions C73_type2.

Theorem C73_type3 :
  forall g a b c y,
    g <> 0 -> tol <= a -> c < y -> b <= power (y - c) (1 / g) ->
  exists x, eval_real (-3) [g; a; b; c] y = Some (Fin x) /\ x = (power (y - c) (1 / g) - b) / a /\
    eval_real 3 [g; a; b; c] x = Some (Fin y).
Proof. exact type3_right. Qed.
Print Assumptions C73_type3.

Theorem C73_type4 :
  forall g a b c d y,
    tol <= g -> tol <= a -> tol <= c ->
  break_value g a b d <= y \/ (y < break_value g a b d /\ y < c * d) ->
  exists x, eval_real (-4) [g; a; b; c; d] y = Some (Fin x) /\ eval_real 4 [g; a; b; c; d] x = Some (Fin y).
Proof. exact type4_right. Qed.
Print Assumptions C73_type4.

Theorem C73_type5 :
  forall g a b c d e f y,
    tol <= g -> tol <= a -> tol <= c ->
  (c * d + f <= y /\ break_value g a b d + e <= y) \/ y < c * d + f ->
  exists x, eval_real (-5) [g; a; b; c; d; e; f] y = Some (Fin x) /\ eval_real 5 [g; a; b; c; d; e; f] x = Some (Fin y).
Proof. exact type5_right. Qed.
Print Assumptions C73_type5.

Theorem C73_type6 :
  forall g a b c y,
    0 < g -> tol <= Rabs a -> c <= y ->
  exists x, eval_real (-6) [g; a; b; c] y = Some (Fin x) /\ x = (power (y - c) (1 / g) - b) / a /\
    eval_real 6 [g; a; b; c] x = Some (Fin y).
Proof. exact type6_right. Qed.
Print Assumptions C73_type6.

Theorem C73_type7 :
  forall g a b c d y,
    tol <= g -> tol <= a -> tol <= b -> c <= power 10 ((y - d) / a) ->
  exists x, eval_real (-7) [g; a; b; c; d] y = Some (Fin x) /\ 0 <= x /\ eval_real 7 [g; a; b; c; d] x = Some (Fin y).
Proof. exact type7_right. Qed.
Print Assumptions C73_type7.

Theorem C73_type8 :
  forall a b c d e y,
    tol <= a -> 0 < b -> b <> 1 -> tol <= Rabs c -> e < y ->
  exists x, eval_real (-8) [a; b; c; d; e] y = Some (Fin x) /\ x = (log_10 ((y - e) / a) / log_10 b - d) / c /\
    eval_real 8 [a; b; c; d; e] x = Some (Fin y).
Proof. exact type8_right. Qed.
Print Assumptions C73_type8.

Theorem C73_type108 :
  forall g y,
    tol <= g -> 0 <= y <= 1 ->
  exists x, eval_real (-108) [g] y = Some (Fin x) /\ 0 <= x <= 1 /\ x = 1 - power (1 - power y g) g /\ eval_real 108 [g] x = Some (Fin y).
Proof. exact type108_right. Qed.
Print Assumptions C73_type108.

Example C73_srgb :
  forall y, 0 <= y <= 1 -> break_value (12 / 5) (1000 / 1055) (55 / 1055) (4045 / 100000) <= y ->
    let p := [12 / 5; 1000 / 1055; 55 / 1055; 100 / 1292; 4045 / 100000] in
    exists x, eval_real (-4) p y = Some (Fin x) /\ eval_real 4 p x = Some (Fin y).
Proof. intros y Y B p. apply C73_type4; try (unfold tol; lra). Qed.

(** C74.  Values in the unit interval stay in the unit interval. *)
Theorem C74_type1_range :
  forall g r,
    0 < g -> 0 <= r <= 1 -> exists y, eval_real 1 [g] r = Some (Fin y) /\ 0 <= y <= 1.
Proof. exact type1_range. Qed.
Print Assumptions C74_type1_range.

Theorem C74_type4_range :
  forall g a b c d r,
    0 < g -> 0 < a -> 0 <= c -> c * d <= 1 -> 0 <= a * d + b -> a + b <= 1 -> 0 <= r <= 1 ->
  exists y, eval_real 4 [g; a; b; c; d] r = Some (Fin y) /\ 0 <= y <= 1.
Proof. exact type4_range. Qed.
Print Assumptions C74_type4_range.

Theorem C74_type108_range :
  forall g r,
    tol <= g -> 0 <= r <= 1 -> exists y, eval_real 108 [g] r = Some (Fin y) /\ 0 <= y <= 1.
Proof. exact type108_range. Qed.
Print Assumptions C74_type108_range.

Theorem C74_type109_range :
  forall k r,
    k <> 0 -> 0 <= r <= 1 -> exists y, eval_real 109 [k] r = Some (Fin y) /\ 0 <= y <= 1.
Proof. exact type109_range. Qed.
Print Assumptions C74_type109_range.

Theorem C74_type2_nonneg :
  forall g a b r, exists y, eval_real 2 [g; a; b] r = Some (Fin y) /\ 0 <= y.
Proof. exact type2_never_negative. Qed.
Print Assumptions C74_type2_nonneg.

Example C74_srgb :
  forall r, 0 <= r <= 1 ->
    exists y, eval_real 4 [12 / 5; 1000 / 1055; 55 / 1055; 100 / 1292; 4045 / 100000] r = Some (Fin y) /\ 0 <= y <= 1.
Proof. intros r R0. apply C74_type4_range; lra. Qed.
