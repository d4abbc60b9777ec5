(** C106: how the curve types contain each other.  Whatever the math library computes, in binary64. *)
From Coq Require Import ZArith List Reals.
From Flocq Require Import IEEE754.BinarySingleNaN.
From Verif Require Import M_Base M_F64 M_Curve M_CurveF64 M_CurveReal S_Exact S_Contains P_Contains.
Import ListNotations.
Open Scope Z_scope.

(** C106.  Type 4 is type 5 with both offsets zero ... *)
Theorem C106_four_in_five :
  forall pow lg ex g a b c d e f r, is_nil e -> is_nil f ->
    let eval := eval_parametric (f64_ops pow lg ex) in
    alike (eval 5 [g; a; b; c; d; e; f] r) (eval 4 [g; a; b; c; d] r).
Proof. exact four_in_five. Qed.
Print Assumptions C106_four_in_five.

(** ... and with offsets type 5 is type 4 with one of them added. *)
Theorem C106_five_is_four_shifted :
  forall pow lg ex g a b c d e f r y, let O := f64_ops pow lg ex in
    eval_parametric O 4 [g; a; b; c; d] r = Some y ->
    alike (eval_parametric O 5 [g; a; b; c; d; e; f] r) (Some (f_add O y (if f_ge O r d then e else f))).
Proof. exact five_is_four_shifted. Qed.
Print Assumptions C106_five_is_four_shifted.

(** Type 2 is type 4 with slope 0 and break -b/a. *)
Theorem C106_two_in_four :
  forall pow lg ex g a b c r, ~ tiny a -> is_nil c -> is_finite r = true -> let O := f64_ops pow lg ex in
    alike (eval_parametric O 4 [g; a; b; c; f_div O (f_neg O b) a] r) (eval_parametric O 2 [g; a; b] r).
Proof. exact two_in_four. Qed.
Print Assumptions C106_two_in_four.

(** Type 3 without offset is type 2, from zero on ... *)
Theorem C106_two_in_three :
  forall pow lg ex g a b c r, ~ (infinite a /\ infinite b) -> is_nil c -> no_less r (f64_lit 0 0) ->
    let eval := eval_parametric (f64_ops pow lg ex) in
    alike (eval 3 [g; a; b; c] r) (eval 2 [g; a; b] r).
Proof. exact two_in_three. Qed.
Print Assumptions C106_two_in_three.

(** ... and with an offset it is type 2 with the offset added, unless r is from the break on and a*r + b not positive. *)
Theorem C106_three_is_two_shifted :
  forall pow lg ex g a b c r y, let O := f64_ops pow lg ex in
    ~ tiny a -> ~ (infinite a /\ infinite b) -> no_less r (f64_lit 0 0) -> eval_parametric O 2 [g; a; b] r = Some y ->
    less (f64_lit 0 0) (f_add O (f_mul O a r) b) \/ less r (f_div O (f_neg O b) a) ->
    alike (eval_parametric O 3 [g; a; b; c] r) (Some (f_add O y c)).
Proof. exact three_is_two_shifted. Qed.
Print Assumptions C106_three_is_two_shifted.

(** Type 1 is type 2 with slope 1, bit for bit, above zero. *)
Theorem C106_one_in_two :
  forall pow lg ex g r, less (f64_lit 0 0) r -> let eval := eval_parametric (f64_ops pow lg ex) in
    eval 2 [g; f64_lit 1 0; f64_lit 0 0] r = eval 1 [g] r.
Proof. exact one_in_two. Qed.
Print Assumptions C106_one_in_two.

(** Type 6 is the upper part of type 5, bit for bit, where a*r + b has a sign ... *)
Theorem C106_six_in_five :
  forall pow lg ex g a b c c' d f r, let O := f64_ops pow lg ex in
    no_less r d -> less (f64_lit 0 0) (f_add O (f_mul O a r) b) \/ less (f_add O (f_mul O a r) b) (f64_lit 0 0) ->
    eval_parametric O 5 [g; a; b; c'; d; c; f] r = eval_parametric O 6 [g; a; b; c] r.
Proof. exact six_in_five. Qed.
Print Assumptions C106_six_in_five.

(** ... and where it is zero, if zero to the gamma is. *)
Theorem C106_six_in_five_zero :
  forall pow lg ex g a b c c' d f r, let O := f64_ops pow lg ex in
    no_less r d -> is_nil (f_add O (f_mul O a r) b) -> (forall z, is_nil z -> is_nil (pow z g)) ->
    alike (eval_parametric O 5 [g; a; b; c'; d; c; f] r) (eval_parametric O 6 [g; a; b; c] r).
Proof. exact six_in_five_nil. Qed.
Print Assumptions C106_six_in_five_zero.

(** In types 7 and 8 factor and offset are applied last. *)
Theorem C106_seven_affine :
  forall pow lg ex g a b c d r y, let O := f64_ops pow lg ex in
    (exists v, exact a = Fin v) -> eval_parametric O 7 [g; f64_lit 1 0; b; c; f64_lit 0 0] r = Some y ->
    alike (eval_parametric O 7 [g; a; b; c; d] r) (Some (f_add O (f_mul O a y) d)).
Proof. exact seven_affine. Qed.
Print Assumptions C106_seven_affine.
Theorem C106_eight_affine :
  forall pow lg ex a b c d e r y, let O := f64_ops pow lg ex in
    eval_parametric O 8 [f64_lit 1 0; b; c; d; f64_lit 0 0] r = Some y ->
    alike (eval_parametric O 8 [a; b; c; d; e] r) (Some (f_add O (f_mul O a y) e)).
Proof. exact eight_affine. Qed.
Print Assumptions C106_eight_affine.

(** The reverse of type 108 is type 108 turned upside down, with the reciprocal parameter, bit for bit. *)
Theorem C106_s_shapes :
  forall pow lg ex g r, let O := f64_ops pow lg ex in ~ tiny g ->
    exists y, eval_parametric O 108 [g] r = Some y /\
      eval_parametric O (-108) [f_div O (f64_lit 1 0) g] (f_sub O (f64_lit 1 0) r) = Some (f_sub O (f64_lit 1 0) y).
Proof. exact s_shapes. Qed.
Print Assumptions C106_s_shapes.

(** Reverses: -6 is the upper part of -5 ... *)
Theorem C106_m6_in_m5 :
  forall pow lg ex g a b c c' d f r, let O := f64_ops pow lg ex in
    ~ tiny g -> no_less r (f_add O (f_mul O c' d) f) ->
    eval_parametric O (-5) [g; a; b; c'; d; c; f] r = eval_parametric O (-6) [g; a; b; c] r.
Proof. exact m6_in_m5. Qed.
Print Assumptions C106_m6_in_m5.

(** ... and -3 above the offset ... *)
Theorem C106_m3_is_m6 :
  forall pow lg ex g a b c r, less c r -> let eval := eval_parametric (f64_ops pow lg ex) in
    eval (-3) [g; a; b; c] r = eval (-6) [g; a; b; c] r.
Proof. exact m3_is_m6. Qed.
Print Assumptions C106_m3_is_m6.

(** ... -2 is the upper part of -4, cut off at zero ... *)
Theorem C106_m2_is_m4 :
  forall pow lg ex g a b c d r y, let O := f64_ops pow lg ex in
    ~ tiny g -> ~ tiny a -> no_less r (f64_lit 0 0) ->
    no_less r (if f_lt O (f_add O (f_mul O a d) b) (f64_lit 0 0) then f64_lit 0 0 else pow (f_add O (f_mul O a d) b) g) ->
    eval_parametric O (-4) [g; a; b; c; d] r = Some y ->
    eval_parametric O (-2) [g; a; b] r = Some (if f_lt O y (f64_lit 0 0) then f64_lit 0 0 else y).
Proof. exact m2_is_m4. Qed.
Print Assumptions C106_m2_is_m4.

(** ... -1 is -2 with slope 1, from zero on ... *)
Theorem C106_m1_in_m2 :
  forall pow lg ex g r, let O := f64_ops pow lg ex in
    ~ tiny g -> no_less r (f64_lit 0 0) -> ~ less (pow r (f_div O (f64_lit 1 0) g)) (f64_lit 0 0) ->
    alike (eval_parametric O (-2) [g; f64_lit 1 0; f64_lit 0 0] r) (eval_parametric O (-1) [g] r).
Proof. exact m1_is_m2. Qed.
Print Assumptions C106_m1_in_m2.

(** ... and -4 is -5 without offsets, above zero, where r is on the same side of the two breaks. *)
Theorem C106_m4_in_m5 :
  forall pow lg ex g a b c d e f r, let O := f64_ops pow lg ex in
    is_nil e -> is_nil f -> less (f64_lit 0 0) r ->
    (no_less r (f_add O (f_mul O c d) f) <->
     no_less r (if f_lt O (f_add O (f_mul O a d) b) (f64_lit 0 0) then f64_lit 0 0 else pow (f_add O (f_mul O a d) b) g)) ->
    alike (eval_parametric O (-5) [g; a; b; c; d; e; f] r) (eval_parametric O (-4) [g; a; b; c; d] r).
Proof. exact m4_in_m5. Qed.
Print Assumptions C106_m4_in_m5.

(** A case where the hypotheses on type 2 hold (a = b = 1, r = -1/2, result 1/2), and cases that show they are needed: types 2 and 4
    at minus infinity, 2 and 3 below zero, 2 and 3 with infinite slope and offset, 3 and 2 shifted with a falling base, 5 and 6 on NaN,
    type 7 with an infinite factor. *)
Example C106_examples :
  let eval := eval_parametric (f64_ops (fun x _ => x) (fun x => x) (fun x => x)) in
  let I := f64_lit 1 0 in let Z := f64_lit 0 0 in let inf := B754_infinity false in
  (~ tiny I /\ is_nil Z /\ is_finite (f64_lit (-1) (-1)) = true /\
   eval 2 [I; I; I] (f64_lit (-1) (-1)) = Some (f64_lit 1 (-1)) /\ eval 4 [I; I; I; Z; f64_lit (-1) 0] (f64_lit (-1) (-1)) = Some (f64_lit 1 (-1))) /\
  (eval 2 [I; I; I] (B754_infinity true) = Some Z /\ eval 4 [I; I; I; Z; f64_lit (-1) 0] (B754_infinity true) = Some B754_nan) /\
  eval 3 [I; I; I; Z] (f64_lit (-1) (-1)) = Some Z /\
  (eval 2 [I; inf; inf] I = Some Z /\ eval 3 [I; inf; inf; Z] I = Some inf) /\
  (eval 2 [I; f64_lit (-1) 0; I] (f64_lit 2 0) = Some Z /\ eval 3 [I; f64_lit (-1) 0; I; I] (f64_lit 2 0) = Some Z) /\
  (eval 6 [I; B754_nan; Z; I] I = Some B754_nan /\ eval 5 [I; B754_nan; Z; Z; Z; I; Z] I = Some I) /\
  (eval 7 [I; I; Z; Z; Z] I = Some Z /\ eval 7 [I; inf; Z; Z; I] I = Some I /\ Bmult mode_NE inf Z = B754_nan).
Proof. exact contains_examples. Qed.
