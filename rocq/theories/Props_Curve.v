(** C50-C64: parametric curves.  [eval_real t params r = Some (Fin y)]: the evaluator returns the number y. *)
From Coq Require Import Reals Lra.
From Verif Require Import M_Base M_Curve M_CurveReal M_CurveF64 S_Curve P_Curve Props_Endian Props_Null.
Open Scope R_scope.

(** C50 *)
Theorem C50_panics_iff :
  forall (F : Type) (O : FOps F) (t : Z) (c : Curve) (params : list F) (r : F),
    In c default_curves -> function_curve_id c = Z.abs t ->
    (eval_parametric O t params r = None <-> (List.length params < parameter_count c)%nat).
Proof. intros F O t c ps r I E. apply eval_panics. apply registered. exists c. auto. Qed.
Print Assumptions C50_panics_iff.

Theorem C50_extra_ignored :
  forall (F : Type) (O : FOps F) (t : Z) (c : Curve) (params more : list F) (r : F),
    In c default_curves -> function_curve_id c = Z.abs t -> (parameter_count c <= List.length params)%nat ->
    eval_parametric O t (params ++ more) r = eval_parametric O t params r.
Proof. intros F O t c ps more r I E L. refine (eval_extra O t _ ps more r _ L). apply registered. exists c. auto. Qed.
Print Assumptions C50_extra_ignored.

(** Never otherwise: an unregistered type reads no parameter. *)
Theorem C50_panic_means_registered_and_short :
  forall (F : Type) (O : FOps F) (t : Z) (params : list F) (r : F),
    eval_parametric O t params r = None ->
    exists n, parameters_of (Z.abs t) = Some n /\ (List.length params < n)%nat.
Proof.
  intros F O t ps r H. destruct (parameters_of (Z.abs t)) as [n|] eqn:P.
  - exists n. split; [reflexivity|]. exact (proj1 (eval_panics O t n ps r P) H).
  - rewrite (eval_unsupported O t ps r P) in H. discriminate.
Qed.
Print Assumptions C50_panic_means_registered_and_short.

Theorem C50_table :
  forall t n, parameters_of t = Some n <-> exists c, In c default_curves /\ function_curve_id c = t /\ parameter_count c = n.
Proof. exact registered. Qed.
Print Assumptions C50_table.

Example C50_srgb_without_break :
  forall F (O : FOps F) (x r : F), eval_parametric O 4 [x; x; x; x] r = None /\ eval_parametric O (-5) [x; x; x; x; x; x] r = None.
Proof. intros. split; reflexivity. Qed.

(** C51 *)
Theorem C51_position :
  forall e t i, (- 2 ^ 31 < t < 2 ^ 31)%Z ->
    (is_in_set e default_curves t = Some (Some i) <-> nth_error type_order i = Some (Z.abs t)).
Proof. intros e t i R. apply default_positions; lia. Qed.
Print Assumptions C51_position.

Theorem C51_none_iff :
  forall e t, (- 2 ^ 31 <= t < 2 ^ 31)%Z ->
    (is_in_set e default_curves t = Some None <-> parameters_of (Z.abs t) = None /\ ~ (t = (- 2 ^ 31)%Z /\ ovf e = true)).
Proof. exact default_unknown. Qed.
Print Assumptions C51_none_iff.

(** For every table, not only the default one. *)
Theorem C51_panics_iff :
  forall e curves t, is_in_set e curves t = None <-> t = (- 2 ^ 31)%Z /\ ovf e = true /\ curves <> [].
Proof. exact set_panics. Qed.
Print Assumptions C51_panics_iff.

Theorem C51_first_match :
  forall e curves t i, (- 2 ^ 31 < t < 2 ^ 31)%Z ->
    (is_in_set e curves t = Some (Some i) <->
     (exists c, nth_error curves i = Some c /\ function_curve_id c = Z.abs t) /\
     (forall j c, (j < i)%nat -> nth_error curves j = Some c -> function_curve_id c <> Z.abs t)).
Proof.
  intros e cs t i R. rewrite set_found by lia. unfold i32_abs_wrapping. destruct (Z.eqb_spec t (- 2 ^ 31)); [lia|reflexivity].
Qed.
Print Assumptions C51_first_match.

Theorem C51_sign_ignored :
  forall e curves t, (- 2 ^ 31 < t < 2 ^ 31)%Z -> is_in_set e curves (- t) = is_in_set e curves t.
Proof. intros e cs t R. apply set_symmetric; lia. Qed.
Print Assumptions C51_sign_ignored.

Theorem C51_unsupported_is_zero :
  forall (F : Type) (O : FOps F) (t : Z) (params : list F) (r : F),
    parameters_of (Z.abs t) = None -> eval_parametric O t params r = Some (f_lit O L0).
Proof. intros F O t ps r. apply eval_unsupported. Qed.
Print Assumptions C51_unsupported_is_zero.

Example C51_cases :
  is_in_set pc default_curves (-108) = Some (Some 8%nat) /\ is_in_set pc default_curves 9 = Some None /\
  is_in_set pc default_curves 0 = Some None /\
  is_in_set pc default_curves (- 2 ^ 31) = None /\ is_in_set pc_release default_curves (- 2 ^ 31) = Some None /\
  parameters_of 9 = None /\ eval_real 9 [] 3 = Some (Fin 0).
Proof. repeat split; reflexivity. Qed.

(** C52 *)
Theorem C52_type1_inverse :
  forall g r, tol <= Rabs g -> 0 < r \/ (r = 0 /\ 0 < g) ->
    exists y, eval_real 1 [g] r = Some (Fin y) /\ y = power r g /\ eval_real (-1) [g] y = Some (Fin r).
Proof. exact type1_inverse. Qed.
Print Assumptions C52_type1_inverse.

(** With a gamma below the tolerance the reverse is the constant 1e22. *)
Theorem C52_tiny_gamma_refuted :
  exists g r, 0 < g < tol /\ 0 < r /\ eval_real 1 [g] r = Some (Fin (power r g)) /\
    eval_real (-1) [g] (power r g) = Some (Fin (10 ^ 22)).
Proof. exact type1_tiny. Qed.
Print Assumptions C52_tiny_gamma_refuted.

Lemma square x : 0 < x -> power x 2 = x * x.
Proof.
  intros H. rewrite power_pos by exact H. replace 2 with (INR 2) by (cbn; lra). rewrite Rpower_pow by exact H. cbn. ring.
Qed.
Example C52_square : eval_real 1 [2] 3 = Some (Fin 9) /\ eval_real (-1) [2] 9 = Some (Fin 3).
Proof.
  destruct (C52_type1_inverse 2 3) as (y & E & Y & E').
  - rewrite Rabs_right by lra. unfold tol. lra.
  - lra.
  - rewrite square in Y by lra. replace (3 * 3) with 9 in Y by lra. subst y. now split.
Qed.

(** C53 *)
Theorem C53_type2_inverse :
  forall g a b r, tol <= Rabs g -> tol <= a -> 0 <= r -> 0 < a * r + b ->
    exists y, eval_real 2 [g; a; b] r = Some (Fin y) /\ y = power (a * r + b) g /\ eval_real (-2) [g; a; b] y = Some (Fin r).
Proof. exact type2_inverse. Qed.
Print Assumptions C53_type2_inverse.

Example C53_case : eval_real 2 [2; 2; 1] 1 = Some (Fin 9) /\ eval_real (-2) [2; 2; 1] 9 = Some (Fin 1).
Proof.
  destruct (C53_type2_inverse 2 2 1 1) as (y & E & Y & E'); try (unfold tol; lra).
  - rewrite Rabs_right by lra. unfold tol. lra.
  - replace (2 * 1 + 1) with 3 in Y by lra. rewrite square in Y by lra. replace (3 * 3) with 9 in Y by lra. subst y. now split.
Qed.

(** C54 *)
Theorem C54_type3_inverse :
  forall g a b c r, g <> 0 -> tol <= a -> 0 <= r -> 0 < a * r + b ->
    exists y, eval_real 3 [g; a; b; c] r = Some (Fin y) /\ y = power (a * r + b) g + c /\
      eval_real (-3) [g; a; b; c] y = Some (Fin r).
Proof. exact type3_inverse. Qed.
Print Assumptions C54_type3_inverse.

Theorem C54_flat_part :
  forall g a b c r, tol <= a -> r < Rmax (- b / a) 0 ->
    eval_real 3 [g; a; b; c] r = Some (Fin c) /\ eval_real (-3) [g; a; b; c] c = Some (Fin 0).
Proof. exact type3_flat. Qed.
Print Assumptions C54_flat_part.

Theorem C54_below_the_offset :
  forall g a b c y, tol <= a -> y < c -> eval_real (-3) [g; a; b; c] y = Some (Fin (- b / a)).
Proof. exact type3_below. Qed.
Print Assumptions C54_below_the_offset.

(** At the break itself, where a r + b = 0, the result is 0 and not c. *)
Theorem C54_offset_at_the_break_refuted :
  forall g a b c, tol <= a -> b <= 0 -> eval_real 3 [g; a; b; c] (- b / a) = Some (Fin 0).
Proof. exact type3_break. Qed.
Print Assumptions C54_offset_at_the_break_refuted.

Example C54_case : eval_real 3 [2; 2; 1; 5] 1 = Some (Fin 14) /\ eval_real (-3) [2; 2; 1; 5] 14 = Some (Fin 1).
Proof.
  destruct (C54_type3_inverse 2 2 1 5 1) as (y & E & Y & E'); try (unfold tol; lra).
  replace (2 * 1 + 1) with 3 in Y by lra. rewrite square in Y by lra. replace (3 * 3 + 5) with 14 in Y by lra. subst y. now split.
Qed.

(** C55 *)
Theorem C55_type4_inverse :
  forall g a b c d r, tol <= g -> tol <= a -> tol <= c -> c * d <= break_value g a b d ->
    (d <= r -> 0 <= a * r + b) ->
    exists y, eval_real 4 [g; a; b; c; d] r = Some (Fin y) /\ y = (if Rle_dec d r then power (a * r + b) g else c * r) /\
      eval_real (-4) [g; a; b; c; d] y = Some (Fin r).
Proof. exact type4_inverse. Qed.
Print Assumptions C55_type4_inverse.

(** The sRGB parameters of IEC 61966-2.1 meet the hypotheses, for every input from 0 up. *)
Example C55_srgb :
  forall r, 0 <= r ->
    let p := [12 / 5; 1000 / 1055; 55 / 1055; 100 / 1292; 4045 / 100000] in
    exists y, eval_real 4 p r = Some (Fin y) /\ eval_real (-4) p y = Some (Fin r).
Proof.
  intros r H p. destruct (C55_type4_inverse (12 / 5) (1000 / 1055) (55 / 1055) (100 / 1292) (4045 / 100000) r) as (y & E & _ & E');
    try (unfold tol; lra); [exact srgb_break|]. exists y. now split.
Qed.

(** C56 *)
Theorem C56_type5_inverse :
  forall g a b c d e f r, tol <= g -> tol <= a -> tol <= c -> c * d + f <= break_value g a b d + e ->
    (d <= r -> 0 <= a * r + b) ->
    exists y, eval_real 5 [g; a; b; c; d; e; f] r = Some (Fin y) /\
      y = (if Rle_dec d r then power (a * r + b) g + e else c * r + f) /\
      eval_real (-5) [g; a; b; c; d; e; f] y = Some (Fin r).
Proof. exact type5_inverse. Qed.
Print Assumptions C56_type5_inverse.

Example C56_srgb_shifted :
  forall r, 0 <= r ->
    let p := [12 / 5; 1000 / 1055; 55 / 1055; 100 / 1292; 4045 / 100000; 1 / 10; 1 / 10] in
    exists y, eval_real 5 p r = Some (Fin y) /\ eval_real (-5) p y = Some (Fin r).
Proof.
  intros r H p.
  destruct (C56_type5_inverse (12 / 5) (1000 / 1055) (55 / 1055) (100 / 1292) (4045 / 100000) (1 / 10) (1 / 10) r) as (y & E & _ & E');
    try (unfold tol; lra); [pose proof srgb_break; lra|]. exists y. now split.
Qed.

(** C57 *)
Theorem C57_type6_inverse :
  forall g a b c r, tol <= Rabs a -> (0 < a * r + b /\ g <> 0) \/ (a * r + b = 0 /\ 0 < g) ->
    exists y, eval_real 6 [g; a; b; c] r = Some (Fin y) /\ y = power (a * r + b) g + c /\
      eval_real (-6) [g; a; b; c] y = Some (Fin r).
Proof. exact type6_inverse. Qed.
Print Assumptions C57_type6_inverse.

Example C57_decreasing : eval_real 6 [2; -1; 4; 1] 1 = Some (Fin 10) /\ eval_real (-6) [2; -1; 4; 1] 10 = Some (Fin 1).
Proof.
  destruct (C57_type6_inverse 2 (-1) 4 1 1) as (y & E & Y & E'); try lra.
  - rewrite Rabs_left by lra. unfold tol. lra.
  - replace (-1 * 1 + 4) with 3 in Y by lra. rewrite square in Y by lra. replace (3 * 3 + 1) with 10 in Y by lra. subst y. now split.
Qed.

(** C58 *)
Theorem C58_type7_inverse :
  forall g a b c d r, tol <= g -> tol <= a -> tol <= b -> 0 <= r -> 0 < b * power r g + c ->
    exists y, eval_real 7 [g; a; b; c; d] r = Some (Fin y) /\ y = a * log_10 (b * power r g + c) + d /\
      eval_real (-7) [g; a; b; c; d] y = Some (Fin r).
Proof. exact type7_inverse. Qed.
Print Assumptions C58_type7_inverse.

Example C58_case : eval_real 7 [2; 2; 1; 1; 5] 3 = Some (Fin 7) /\ eval_real (-7) [2; 2; 1; 1; 5] 7 = Some (Fin 3).
Proof.
  pose proof (square 3 ltac:(lra)) as S.
  destruct (C58_type7_inverse 2 2 1 1 5 3) as (y & E & Y & E'); try (unfold tol; lra).
  rewrite S in Y. replace (1 * (3 * 3) + 1) with 10 in Y by lra.
  assert (L : log_10 10 = 1) by (unfold log_10; pose proof ln10_pos; field; lra).
  rewrite L in Y. replace (2 * 1 + 5) with 7 in Y by lra. subst y. now split.
Qed.

(** C59 *)
Theorem C59_type8_inverse :
  forall a b c d e r, tol <= a -> 0 < b -> b <> 1 -> tol <= Rabs c ->
    exists y, eval_real 8 [a; b; c; d; e] r = Some (Fin y) /\ y = a * power b (c * r + d) + e /\
      eval_real (-8) [a; b; c; d; e] y = Some (Fin r).
Proof. exact type8_inverse. Qed.
Print Assumptions C59_type8_inverse.

(** With a negative scale the forward curve is below its offset and the reverse gives 0. *)
Theorem C59_negative_scale_refuted :
  forall a b c d e r, a < 0 -> 0 < b ->
    exists y, eval_real 8 [a; b; c; d; e] r = Some (Fin y) /\ eval_real (-8) [a; b; c; d; e] y = Some (Fin 0).
Proof. exact type8_negative. Qed.
Print Assumptions C59_negative_scale_refuted.

Example C59_case : eval_real 8 [2; 3; 1; 1; 5] 1 = Some (Fin 23) /\ eval_real (-8) [2; 3; 1; 1; 5] 23 = Some (Fin 1).
Proof.
  destruct (C59_type8_inverse 2 3 1 1 5 1) as (y & E & Y & E'); try (unfold tol; lra).
  - rewrite Rabs_right by lra. unfold tol. lra.
  - replace (1 * 1 + 1) with 2 in Y by lra. rewrite square in Y by lra. replace (2 * (3 * 3) + 5) with 23 in Y by lra. subst y. now split.
Qed.

(** C60 *)
Theorem C60_type108_inverse :
  forall g r, tol <= g -> 0 <= r <= 1 ->
    exists y, eval_real 108 [g] r = Some (Fin y) /\ y = s_curve g r /\ eval_real (-108) [g] y = Some (Fin r).
Proof. exact type108_inverse. Qed.
Print Assumptions C60_type108_inverse.

Example C60_half : eval_real 108 [1 / 2] (1 / 2) = Some (Fin (9 / 16)) /\ eval_real (-108) [1 / 2] (9 / 16) = Some (Fin (1 / 2)).
Proof.
  destruct (C60_type108_inverse (1 / 2) (1 / 2)) as (y & E & Y & E'); try (unfold tol; lra).
  unfold s_curve in Y. replace (1 / (1 / 2)) with 2 in Y by lra. replace (1 - 1 / 2) with (1 / 2) in Y by lra.
  rewrite (square (1 / 2)) in Y by lra. replace (1 - 1 / 2 * (1 / 2)) with (3 / 4) in Y by lra.
  rewrite square in Y by lra. replace (3 / 4 * (3 / 4)) with (9 / 16) in Y by lra. subst y. now split.
Qed.

(** C61 *)
Theorem C61_type109_round_trip :
  forall k r, k <> 0 ->
    exists y, eval_real 109 [k] r = Some (Fin y) /\ y = sigmoid k r /\
      eval_real (-109) [k] y = Some (Fin (((2 * r - 1) / ln 10 + 1) / 2)).
Proof. exact type109_wrong_inverse. Qed.
Print Assumptions C61_type109_round_trip.

Theorem C61_inverts_only_at_half :
  forall k r, k <> 0 ->
    eval_real 109 [k] r = Some (Fin (sigmoid k r)) /\
    (eval_real (-109) [k] (sigmoid k r) = Some (Fin r) <-> r = / 2).
Proof. exact type109_inverts_only_at_half. Qed.
Print Assumptions C61_inverts_only_at_half.

Theorem C61_inverse_refuted : ~ (forall k r y, k <> 0 -> eval_real 109 [k] r = Some (Fin y) -> eval_real (-109) [k] y = Some (Fin r)).
Proof.
  intros H. destruct (C61_inverts_only_at_half 1 1 ltac:(lra)) as (E & I). specialize (H 1 1 _ ltac:(lra) E). apply I in H. lra.
Qed.
Print Assumptions C61_inverse_refuted.

(** C62 *)
Theorem C62_negative_input :
  forall g r, r < 0 ->
    eval_real 1 [g] r = Some (Fin (if Rlt_dec (Rabs g) (1 + tol) then r else 0)) /\
    eval_real (-1) [g] r = Some (Fin (if Rlt_dec (Rabs (g - 1)) tol then r else 0)).
Proof. exact type1_negative. Qed.
Print Assumptions C62_negative_input.

Theorem C62_disagree_iff :
  forall g r, r < 0 -> (eval_real 1 [g] r <> eval_real (-1) [g] r <-> - (1 + tol) < g <= 1 - tol).
Proof. exact type1_negative_disagree. Qed.
Print Assumptions C62_disagree_iff.

Example C62_square_root : eval_real 1 [1 / 2] (-3) = Some (Fin (-3)) /\ eval_real (-1) [1 / 2] (-3) = Some (Fin 0) /\
  eval_real 1 [2] (-3) = Some (Fin 0).
Proof.
  destruct (C62_negative_input (1 / 2) (-3) ltac:(lra)) as (-> & ->). destruct (C62_negative_input 2 (-3) ltac:(lra)) as (-> & _).
  rewrite !(Rabs_right 2), !(Rabs_right (1 / 2)), (Rabs_left (1 / 2 - 1)) by lra. unfold tol. repeat split; do 2 f_equal;
    match goal with |- context [Rlt_dec ?x ?y] => destruct (Rlt_dec x y) end; lra.
Qed.

(** C63 *)
Theorem C63_type1 :
  forall g r r', 0 < g -> 0 <= r < r' ->
    exists y y', eval_real 1 [g] r = Some (Fin y) /\ eval_real 1 [g] r' = Some (Fin y') /\ y < y'.
Proof. exact type1_increasing. Qed.
Print Assumptions C63_type1.

Theorem C63_type4 :
  forall g a b c d r r', 0 < g -> 0 < a -> 0 < c -> c * d <= break_value g a b d ->
    (d <= r -> 0 <= a * r + b) -> (d <= r' -> 0 <= a * r' + b) -> r < r' ->
    exists y y', eval_real 4 [g; a; b; c; d] r = Some (Fin y) /\ eval_real 4 [g; a; b; c; d] r' = Some (Fin y') /\ y < y'.
Proof. exact type4_increasing. Qed.
Print Assumptions C63_type4.

Theorem C63_type108 :
  forall g r r', tol <= g -> 0 <= r < r' -> r' <= 1 ->
    exists y y', eval_real 108 [g] r = Some (Fin y) /\ eval_real 108 [g] r' = Some (Fin y') /\ y < y'.
Proof. exact type108_increasing. Qed.
Print Assumptions C63_type108.

Theorem C63_type109 :
  forall k r r', k <> 0 -> r < r' ->
    exists y y', eval_real 109 [k] r = Some (Fin y) /\ eval_real 109 [k] r' = Some (Fin y') /\ y < y'.
Proof. exact type109_increasing. Qed.
Print Assumptions C63_type109.

Example C63_srgb :
  forall r r', 0 <= r < r' ->
    let p := [12 / 5; 1000 / 1055; 55 / 1055; 100 / 1292; 4045 / 100000] in
    exists y y', eval_real 4 p r = Some (Fin y) /\ eval_real 4 p r' = Some (Fin y') /\ y < y'.
Proof. intros r r' H p. apply C63_type4; try lra. exact srgb_break. Qed.

(** C64 *)
Theorem C64_type108_ends : forall g, tol <= g -> eval_real 108 [g] 0 = Some (Fin 0) /\ eval_real 108 [g] 1 = Some (Fin 1).
Proof. exact type108_ends. Qed.
Print Assumptions C64_type108_ends.

Theorem C64_type109_fixed_points :
  forall k, k <> 0 ->
    eval_real 109 [k] 0 = Some (Fin 0) /\ eval_real 109 [k] 1 = Some (Fin 1) /\ eval_real 109 [k] (/ 2) = Some (Fin (/ 2)).
Proof. exact type109_ends. Qed.
Print Assumptions C64_type109_fixed_points.

Theorem C64_type109_symmetric :
  forall k r, k <> 0 ->
    exists y, eval_real 109 [k] r = Some (Fin y) /\ eval_real 109 [k] (1 - r) = Some (Fin (1 - y)).
Proof. exact type109_symmetric. Qed.
Print Assumptions C64_type109_symmetric.

(** With k = 0 nothing is fixed: 0/0 gives NaN. *)
Theorem C64_flat_sigmoid_refuted : forall r, eval_real 109 [0] r = Some NaN.
Proof. exact type109_zero. Qed.
Print Assumptions C64_flat_sigmoid_refuted.
