(** C108: where the parametric curves and their reverses are continuous, in exact arithmetic. *)
From Coq Require Import Reals Lra ZArith.
From Verif Require Import M_Base M_Curve M_CurveReal S_Curve S_Jump P_Jump P_Jump2.
Open Scope R_scope.

(** C108.  The gamma curve breaks only at 0, and only for gamma <= 0. *)
Theorem C108_type1 : forall g x, steady 1 [g] x <-> (x = 0 -> 0 < g).
Proof. exact type1_steady. Qed.
Print Assumptions C108_type1.
Theorem C108_type1_reversed : forall g x, steady (-1) [g] x <-> (x = 0 -> tol <= g).
Proof. exact type1r_steady. Qed.
Print Assumptions C108_type1_reversed.

Theorem C108_type2 : forall g a b x, steady 2 [g; a; b] x <-> (tol <= a -> x = - b / a -> 0 < g).
Proof. exact type2_steady. Qed.
Print Assumptions C108_type2.
Theorem C108_type2_reversed :
  forall g a b x,
    steady (-2) [g; a; b] x <-> (x = 0 -> usable g a -> (0 < g -> 0 <= b / a) /\ (g < 0 -> a < 0)).
Proof. exact type2r_steady. Qed.
Print Assumptions C108_type2_reversed.

(** Type 3 starts its power part at max(-b/a, 0).  There it jumps unless c = 0 and, for a rising curve, b <= 0. *)
Theorem C108_type3 :
  forall g a b c x,
    steady 3 [g; a; b; c] x <->
    (tol <= Rabs a -> x = Rmax (- b / a) 0 -> c = 0 /\ (0 < a -> b <= 0 /\ 0 < g)).
Proof. exact type3_steady. Qed.
Print Assumptions C108_type3.
Theorem C108_type3_reversed :
  forall g a b c x,
    steady (-3) [g; a; b; c] x <->
    (tol <= Rabs a -> (x = c -> b = 0 /\ 0 <= g) /\ (g = 0 -> x < c + 1)).
Proof. exact type3r_steady. Qed.
Print Assumptions C108_type3_reversed.

(** Types 4 and 5 are continuous iff their two parts meet. *)
Theorem C108_type4 :
  forall g a b c d x,
    steady 4 [g; a; b; c; d] x <->
    (x = d -> c * d = above (a * d + b) g) /\
    (d <= x -> a * x + b = 0 -> a <> 0 -> (x = d -> 0 < a) -> 0 < g).
Proof. exact type4_steady. Qed.
Print Assumptions C108_type4.
Theorem C108_type4_reversed :
  forall g a b c d x D, ~ (a * d + b = 0 /\ g < 0) ->
    D = (if Req_EM_T (a * d + b) 0 then if Req_EM_T g 0 then 1 else 0 else above (a * d + b) g) ->
    (steady (-4) [g; a; b; c; d] x <->
     (x = D -> line_undone c 0 D = undone g a b D /\ (usable g a -> g < 0 -> 0 < D))).
Proof. exact type4r_steady. Qed.
Print Assumptions C108_type4_reversed.
(** With the break at infinity only the straight part is left. *)
Theorem C108_type4_reversed_line_only :
  forall g a b c d x, a * d + b = 0 -> g < 0 -> steady (-4) [g; a; b; c; d] x.
Proof. exact type4r_low. Qed.
Print Assumptions C108_type4_reversed_line_only.
Theorem C108_type4_and_its_reverse :
  forall g a b c d, tol <= g -> tol <= Rabs a -> tol <= Rabs c -> 0 <= a * d + b ->
    ((forall x, steady 4 [g; a; b; c; d] x) <-> (forall y, steady (-4) [g; a; b; c; d] y)).
Proof. exact type4_both. Qed.
Print Assumptions C108_type4_and_its_reverse.
Theorem C108_type5 :
  forall g a b c d e f x,
    steady 5 [g; a; b; c; d; e; f] x <->
    (x = d -> c * d + f = above (a * d + b) g + e) /\
    (d <= x -> a * x + b = 0 -> a <> 0 -> (x = d -> 0 < a) -> 0 < g).
Proof. exact type5_steady. Qed.
Print Assumptions C108_type5.
Theorem C108_type5_reversed :
  forall g a b c d e f x,
    steady (-5) [g; a; b; c; d; e; f] x <->
    (x = c * d + f -> line_undone c f x = undone g a b (x - e)) /\
    (c * d + f <= x -> x = e -> usable g a -> 0 < g /\ (c * d + f < e -> b = 0)).
Proof. exact type5r_steady. Qed.
Print Assumptions C108_type5_reversed.
Theorem C108_type5_and_its_reverse :
  forall g a b c d e f, tol <= g -> tol <= Rabs a -> tol <= Rabs c -> 0 <= a * d + b ->
    (forall x, steady 5 [g; a; b; c; d; e; f] x) -> forall y, steady (-5) [g; a; b; c; d; e; f] y.
Proof. exact type5_both. Qed.
Print Assumptions C108_type5_and_its_reverse.

Theorem C108_type6 :
  forall g a b c x,
    steady 6 [g; a; b; c] x <-> (a * x + b = 0 -> 0 < g \/ (g = 0 /\ a = 0)).
Proof. exact type6_steady. Qed.
Print Assumptions C108_type6.
Theorem C108_type6_reversed :
  forall g a b c x,
    steady (-6) [g; a; b; c] x <->
    (tol <= Rabs a -> (x = c -> b = 0 /\ 0 <= g) /\ (g = 0 -> x < c + 1)).
Proof. exact type6r_steady. Qed.
Print Assumptions C108_type6_reversed.

(** Type 7 answers d where its logarithm has no argument, and runs off to infinity just beside. *)
Theorem C108_type7 :
  forall g a b c d x, 0 < x ->
    (steady 7 [g; a; b; c; d] x <-> (b * Rpower x g + c = 0 -> a = 0 \/ b = 0 \/ g = 0)).
Proof. exact type7_steady. Qed.
Print Assumptions C108_type7.
(** Below 0 the power is real only for whole exponents. *)
Theorem C108_type7_below_0 :
  forall g a b c d x, x < 0 ->
    (steady 7 [g; a; b; c; d] x <->
     exists n, g = IZR n /\ (b * powerRZ x n + c = 0 -> a = 0 \/ b = 0 \/ g = 0)).
Proof. exact type7_below. Qed.
Print Assumptions C108_type7_below_0.
Theorem C108_type7_at_0 :
  forall g a b c d,
    steady 7 [g; a; b; c; d] 0 <->
    g = 0 \/ exists n, g = IZR n /\
      ((0 < g /\ (c <> 0 \/ a = 0 \/ b = 0 \/ (b < 0 /\ Z.even n = true))) \/
       (g < 0 /\ b < 0 /\ (a = 0 \/ Z.even n = true))).
Proof. exact type7_zero. Qed.
Print Assumptions C108_type7_at_0.
Theorem C108_type7_reversed :
  forall g a b c d x,
    steady (-7) [g; a; b; c; d] x <->
    (tol <= g -> tol <= a -> tol <= b -> Rpower 10 ((x - d) / a) <= c -> whole (1 / g)).
Proof. exact type7r_all. Qed.
Print Assumptions C108_type7_reversed.
Theorem C108_type8 :
  forall a b c d e x,
    steady 8 [a; b; c; d; e] x <->
    0 < b \/ (b = 0 /\ (0 < c * x + d \/ (c = 0 /\ d = 0))) \/ (b < 0 /\ c = 0 /\ whole d).
Proof. exact type8_all. Qed.
Print Assumptions C108_type8.
Theorem C108_type8_reversed :
  forall a b c d e x,
    steady (-8) [a; b; c; d; e] x <->
    (tol <= Rabs a -> tol <= Rabs c -> x <> e /\ (e < x -> 0 < a /\ 0 <= b /\ b <> 1)).
Proof. exact type8r_all. Qed.
Print Assumptions C108_type8_reversed.
Theorem C108_type108 :
  forall g x,
    steady 108 [g] x <->
    (tol <= Rabs g ->
     (0 < g /\ 0 < x < 1) \/ (g < 0 /\ x < 0) \/
     exists n, 1 / g = IZR n /\ (0 < g \/ (x <> 0 /\ (Z.even n = true -> x <> 2)))).
Proof. exact type108_all. Qed.
Print Assumptions C108_type108.
Theorem C108_type108_reversed :
  forall g x,
    steady (-108) [g] x <->
    g = 0 \/ (0 < g /\ 0 < x < 1) \/ (g < 0 /\ 1 < x) \/
    exists n, g = IZR n /\ (0 < g \/ (x <> 1 /\ (Z.even n = true -> x <> -1))).
Proof. exact type108r_all. Qed.
Print Assumptions C108_type108_reversed.
Theorem C108_type109 :
  forall k x, steady 109 [k] x <-> k <> 0.
Proof. exact type109_all. Qed.
Print Assumptions C108_type109.
Theorem C108_type109_reversed :
  forall k x, steady (-109) [k] x <-> k <> 0 /\ 0 < (2 * x - 1) * logistic k 1 + / 2 < 1.
Proof. exact type109r_all. Qed.
Print Assumptions C108_type109_reversed.
(** In particular on the unit interval. *)
Theorem C108_type109_reversed_unit : forall k x, k <> 0 -> 0 <= x <= 1 -> steady (-109) [k] x.
Proof. exact type109r_steady. Qed.
Print Assumptions C108_type109_reversed_unit.

(** With its published parameters the sRGB curve is not continuous: its parts miss each other by 2e-9. *)
Theorem C108_srgb_continuous_refuted :
  ~ steady 4 [12 / 5; 1000 / 1055; 55 / 1055; 100 / 1292; 4045 / 100000] (4045 / 100000).
Proof. exact srgb_jumps. Qed.
Print Assumptions C108_srgb_continuous_refuted.

(** Concrete cases. *)
Example ex_steady_everywhere : forall x, steady 1 [11 / 5] x.
Proof. intros x. apply C108_type1. lra. Qed.
Example ex_gamma_zero_jumps : ~ steady 1 [0] 0.
Proof. rewrite C108_type1. intros H. specialize (H eq_refl). lra. Qed.
Example ex_negative_gamma_away_from_0 : steady 1 [-2] 3.
Proof. apply C108_type1. lra. Qed.
Example ex_type3_jumps : ~ steady 3 [2; 1; -1; 5] 1 /\ steady 3 [2; 1; -1; 0] 1.
Proof.
  assert (T : tol <= Rabs 1) by (rewrite Rabs_R1; unfold tol; lra).
  assert (M : 1 = Rmax (- -1 / 1) 0) by (rewrite Rmax_left; lra).
  split.
  - rewrite C108_type3. intros H. destruct (H T M). lra.
  - apply C108_type3. intros _ _. split; [reflexivity|intros _; split; lra].
Qed.
(** x^2 above 1, x below: the parts meet. *)
Example ex_parts_meet : (forall x, steady 4 [2; 1; 0; 1; 1] x) /\ (forall y, steady (-4) [2; 1; 0; 1; 1] y).
Proof.
  assert (A : forall x, steady 4 [2; 1; 0; 1; 1] x).
  { intros x. apply C108_type4. split; [|lra]. intros _. replace (1 * 1 + 0) with 1 by lra. unfold above.
    destruct (Rlt_dec 0 1); [|lra]. unfold Rpower. rewrite ln_1, Rmult_0_r, exp_0. lra. }
  split; [exact A|]. apply C108_type4_and_its_reverse; try exact A; rewrite ?Rabs_R1; unfold tol; lra.
Qed.
Example ex_offset_jumps : ~ steady (-6) [2; 1; 1; 0] 0.
Proof.
  rewrite C108_type6_reversed. intros H. destruct H as (H & _); [rewrite Rabs_R1; unfold tol; lra|]. destruct (H eq_refl). lra.
Qed.
(** Negative and zero gamma. *)
Example ex_negative_gamma_type6 : ~ steady 6 [-1; 1; 0; 0] 0 /\ steady 6 [-1; 1; 0; 0] 2 /\ steady 6 [0; 0; 0; 7] 0.
Proof. rewrite !C108_type6. split; [intros H; destruct H; lra|]. split; [lra|]. intros _. right. split; reflexivity. Qed.
Example ex_negative_gamma_reversed : steady (-2) [-1; -1; 0] 0 /\ ~ steady (-2) [-1; 1; 0] 0.
Proof.
  assert (T : usable (-1) 1) by (unfold usable, tol; split; [rewrite Rabs_left|rewrite Rabs_R1]; lra).
  rewrite !C108_type2_reversed. split; [intros _ _; split; lra|]. intros H. destruct (H eq_refl T) as (_ & H2). lra.
Qed.
Example ex_zero_gamma_reversed : steady (-3) [0; 1; 0; 0] (1 / 2) /\ ~ steady (-3) [0; 1; 0; 0] 1.
Proof.
  rewrite !C108_type3_reversed. split; [intros _; split; lra|]. intros H.
  destruct H as (_ & H); [rewrite Rabs_R1; unfold tol; lra|]. specialize (H eq_refl). lra.
Qed.
Example ex_log_blows_up : ~ steady 7 [1; 1; 1; -1; 3] 1.
Proof.
  rewrite C108_type7 by lra. intros H. destruct H as [H|[H|H]]; try lra. rewrite Rpower_1 by lra. lra.
Qed.
Example ex_log_of_minus_squares : steady 7 [2; 1; -1; 0; 3] 0 /\ ~ steady 7 [2; 1; 1; 0; 3] 0 /\ ~ steady 7 [1 / 2; 1; 1; 1; 3] (-1).
Proof.
  split; [|split].
  - apply C108_type7_at_0. right. exists 2%Z. split; [reflexivity|]. left. split; [lra|]. right. right. right. split; [lra|reflexivity].
  - rewrite C108_type7_at_0. intros [H|(n & _ & [(_ & [H|[H|[H|(H & _)]]])|H])]; lra.
  - rewrite C108_type7_below_0 by lra. intros (n & E & _). assert (H : IZR (2 * n) = 1) by (rewrite mult_IZR, <- E; field).
    apply eq_IZR in H. destruct n; discriminate.
Qed.
Example ex_negative_base : steady 8 [1; -2; 0; 3; 0] 5 /\ ~ steady 8 [1; -2; 1; 0; 0] 2.
Proof.
  rewrite !C108_type8. split; [right; right; repeat split; [lra|now exists 3%Z]|]. intros [H|[H|H]]; lra.
Qed.
Example ex_s_curve_ends : ~ steady 108 [2] 1 /\ steady 108 [1] 1 /\ steady (-108) [-2] 0 /\ ~ steady (-108) [-2] (-1).
Proof.
  assert (T : tol <= Rabs 2) by (rewrite Rabs_right; unfold tol; lra). rewrite !C108_type108, !C108_type108_reversed. split; [|split; [|split]].
  - intros H. destruct (H T) as [K|[K|(n & E & _)]]; [lra|lra|]. assert (K : IZR (2 * n) = 1) by (rewrite mult_IZR, <- E; field).
    apply eq_IZR in K. destruct n; discriminate.
  - intros _. right. right. exists 1%Z. split; [field|left; lra].
  - right. right. right. exists (-2)%Z. split; [reflexivity|right]. split; [lra|intros _; lra].
  - intros [K|[K|[K|(n & E & [K|(_ & K)])]]]; try lra. apply eq_IZR in E. subst n. now apply K.
Qed.
