(** C90-C92: which of the remaining curves keep the order of their inputs, computed in binary64.
    [tol64] is the binary64 number nearest to 0.0001, the tolerance of the guards. *)
From Coq Require Import ZArith List Reals Lra.
From Flocq Require Import IEEE754.BinarySingleNaN.
From Verif Require Import M_Base M_F64 M_Curve M_CurveF64 S_F64 S_Exact S_Order P_Exact3 P_Order P_Order2 P_Order3 P_Order4 P_Order5 P_Order6.
Import ListNotations.
Open Scope Z_scope.

(** C90.  The reversed curves. *)
Theorem C90_type3_reversed_increasing :
  forall (pow : f64 -> f64 -> f64) (lg ex : f64 -> f64), monotone_pow pow ->
  forall g a s c, finite g -> le64 (f64_cst Ltol) g -> positive a -> finite c ->
    increasing (eval_parametric (f64_ops pow lg ex) (-3) [g; a; B754_zero s; c]).
Proof. exact type_m3_mono. Qed.
Print Assumptions C90_type3_reversed_increasing.

(** Whatever the library: with -b/a above 0 it falls to 0 at c. *)
Theorem C90_type3_reversed_refuted :
  forall (pow : f64 -> f64 -> f64) (lg ex : f64 -> f64) g a b c,
    le64 (f64_cst Ltol) (Babs a) -> finite c -> lt64 zero (Bdiv mode_NE (Bopp b) a) ->
    ~ increasing (eval_parametric (f64_ops pow lg ex) (-3) [g; a; b; c]).
Proof. exact type_m3_not_mono. Qed.
Print Assumptions C90_type3_reversed_refuted.

(** Type -4, if it does not step back at its break [disc], where the linear part ends at disc / c. *)
Theorem C90_type4_reversed_increasing :
  forall (pow : f64 -> f64 -> f64) (lg ex : f64 -> f64), monotone_pow pow ->
  forall g a b c d, finite g -> le64 (f64_cst Ltol) g -> positive a -> finite b -> finite c -> le64 (f64_cst Ltol) c -> finite d ->
  let e := Bplus mode_NE (Bmult mode_NE a d) b in
  let disc := if f64_ltb e zero then zero else pow e g in
  (forall y, eval_parametric (f64_ops pow lg ex) (-4) [g; a; b; c; d] disc = Some y -> le64 (Bdiv mode_NE disc c) y) ->
  increasing (eval_parametric (f64_ops pow lg ex) (-4) [g; a; b; c; d]).
Proof. exact type_m4_mono. Qed.
Print Assumptions C90_type4_reversed_increasing.

Theorem C90_type5_reversed_increasing :
  forall (pow : f64 -> f64 -> f64) (lg ex : f64 -> f64), monotone_pow pow ->
  forall g a b c d e f, finite g -> le64 (f64_cst Ltol) g -> positive a -> finite b -> finite c -> le64 (f64_cst Ltol) c -> finite e -> finite f ->
  let disc := Bplus mode_NE (Bmult mode_NE c d) f in
  number disc -> le64 e disc \/ le64 b zero ->
  (forall y, eval_parametric (f64_ops pow lg ex) (-5) [g; a; b; c; d; e; f] disc = Some y -> le64 (Bdiv mode_NE (Bminus mode_NE disc f) c) y) ->
  increasing (eval_parametric (f64_ops pow lg ex) (-5) [g; a; b; c; d; e; f]).
Proof. exact type_m5_mono. Qed.
Print Assumptions C90_type5_reversed_increasing.

Theorem C90_type6_reversed_increasing :
  forall (pow : f64 -> f64 -> f64) (lg ex : f64 -> f64), monotone_pow pow ->
  forall g a b c, finite g -> le64 (f64_cst Ltol) g -> positive a -> finite b -> le64 b zero -> finite c ->
    increasing (eval_parametric (f64_ops pow lg ex) (-6) [g; a; b; c]).
Proof. exact type_m6_mono. Qed.
Print Assumptions C90_type6_reversed_increasing.

(** With -b/a below 0 it falls from 0 to -b/a at c. *)
Theorem C90_type6_reversed_refuted :
  forall (pow : f64 -> f64 -> f64) (lg ex : f64 -> f64) g a b c,
    le64 (f64_cst Ltol) (Babs a) -> finite c -> pow zero (Bdiv mode_NE (f64_cst L1) g) = zero -> lt64 (Bdiv mode_NE (Bminus mode_NE zero b) a) zero ->
    ~ increasing (eval_parametric (f64_ops pow lg ex) (-6) [g; a; b; c]).
Proof. exact type_m6_not_mono. Qed.
Print Assumptions C90_type6_reversed_refuted.

(** All hypotheses are met, with a correctly rounded library. *)
Example C90_samples :
  let best := f64_ops best_pow best_log10 best_exp in
  increasing (eval_parametric best (-3) [f64_lit 2 0; one; zero; f64_lit 1 (-1)]) /\
  increasing (eval_parametric best (-4) [one; one; zero; one; zero]) /\
  increasing (eval_parametric best (-5) [one; one; zero; one; zero; zero; zero]) /\
  increasing (eval_parametric best (-6) [f64_lit 2 0; f64_lit 1 (-1); Bopp one; f64_lit 1 (-1)]) /\
  ~ increasing (eval_parametric best (-3) [f64_lit 2 0; one; Bopp one; zero]) /\
  ~ increasing (eval_parametric best (-6) [one; one; one; zero]).
Proof. exact sample_reversed. Qed.

(** C91.  Logarithms, exponentials and the S-shaped curve. *)
Theorem C91_type7_increasing :
  forall (pow : f64 -> f64 -> f64) (lg ex : f64 -> f64) g a b c d, monotone_pow pow -> monotone_log lg ->
    positive g -> positive a -> positive b -> positive c -> finite d ->
    increasing_on (fun r => le64 zero r) (eval_parametric (f64_ops pow lg ex) 7 [g; a; b; c; d]).
Proof. exact type7_mono. Qed.
Print Assumptions C91_type7_increasing.

(** Without an offset under the logarithm it starts at d and then jumps down. *)
Theorem C91_type7_refuted :
  forall (pow : f64 -> f64 -> f64) (lg ex : f64 -> f64),
    pow zero one = zero -> pow (f64_cst Lhalf) one = f64_cst Lhalf -> finite (lg (f64_cst Lhalf)) -> lt64 (lg (f64_cst Lhalf)) zero ->
    ~ increasing_on (fun r => le64 zero r) (eval_parametric (f64_ops pow lg ex) 7 [one; one; one; zero; zero]).
Proof. exact type7_not_mono. Qed.
Print Assumptions C91_type7_refuted.

Theorem C91_type7_reversed_increasing :
  forall (pow : f64 -> f64 -> f64) (lg ex : f64 -> f64) g a b c d, monotone_pow pow -> monotone_exponent pow ->
    finite g -> le64 (f64_cst Ltol) g -> finite a -> le64 (f64_cst Ltol) a -> finite b -> le64 (f64_cst Ltol) b -> finite c -> le64 c zero -> finite d ->
    increasing (eval_parametric (f64_ops pow lg ex) (-7) [g; a; b; c; d]).
Proof. exact type_m7_mono. Qed.
Print Assumptions C91_type7_reversed_increasing.

Theorem C91_type8_increasing :
  forall (pow : f64 -> f64 -> f64) (lg ex : f64 -> f64) a b c d e, monotone_exponent pow ->
    positive a -> finite b -> lt64 one b -> positive c -> finite d -> finite e ->
    increasing (eval_parametric (f64_ops pow lg ex) 8 [a; b; c; d; e]).
Proof. exact type8_mono. Qed.
Print Assumptions C91_type8_increasing.

(** The reverse from e on; below e it is 0, and at e minus infinity. *)
Theorem C91_type8_reversed_increasing :
  forall (pow : f64 -> f64 -> f64) (lg ex : f64 -> f64) a b c d e, monotone_log lg ->
    positive (lg b) -> finite a -> le64 (f64_cst Ltol) a -> finite c -> le64 (f64_cst Ltol) c -> finite d -> finite e ->
    increasing_on (fun r => le64 e r) (eval_parametric (f64_ops pow lg ex) (-8) [a; b; c; d; e]).
Proof. exact type_m8_mono. Qed.
Print Assumptions C91_type8_reversed_increasing.

Theorem C91_type8_reversed_refuted :
  forall (pow : f64 -> f64 -> f64) (lg ex : f64 -> f64) a b c d e, lg zero = B754_infinity true ->
    positive (lg b) -> finite a -> le64 (f64_cst Ltol) a -> finite c -> le64 (f64_cst Ltol) c -> finite d -> finite e ->
    ~ increasing (eval_parametric (f64_ops pow lg ex) (-8) [a; b; c; d; e]).
Proof. exact type_m8_not_mono. Qed.
Print Assumptions C91_type8_reversed_refuted.

(** Type 108 and its reverse take [0, 1] into itself in order. *)
Theorem C91_type108_increasing :
  forall (pow : f64 -> f64 -> f64) (lg ex : f64 -> f64) g, monotone_pow pow -> one_pow pow -> finite g -> le64 (f64_cst Ltol) g ->
    increasing_on unit_interval (eval_parametric (f64_ops pow lg ex) 108 [g]) /\
    forall r y, unit_interval r -> eval_parametric (f64_ops pow lg ex) 108 [g] r = Some y -> unit_interval y.
Proof. exact (fun pow lg ex g MP OP G T => conj (type108_mono pow lg ex g MP OP G T) (fun r y R => type108_unit pow lg ex g r y MP OP G T R)). Qed.
Print Assumptions C91_type108_increasing.

Theorem C91_type108_reversed_increasing :
  forall (pow : f64 -> f64 -> f64) (lg ex : f64 -> f64) g, monotone_pow pow -> one_pow pow -> positive g ->
    increasing_on unit_interval (eval_parametric (f64_ops pow lg ex) (-108) [g]) /\
    forall r y, unit_interval r -> eval_parametric (f64_ops pow lg ex) (-108) [g] r = Some y -> unit_interval y.
Proof. exact (fun pow lg ex g MP OP G => conj (type_m108_mono pow lg ex g MP OP G) (fun r y R => type_m108_unit pow lg ex g r y MP OP G R)). Qed.
Print Assumptions C91_type108_reversed_increasing.

(** A correctly rounded library keeps all these orders. *)
Theorem C91_library_conditions :
  (forall pow, exact_pow pow -> monotone_exponent pow /\ one_pow pow) /\ (forall lg, exact_log10 lg -> monotone_log lg) /\
  (forall ex, exact_exp ex -> monotone_exp ex /\ exp_zero ex).
Proof.
  exact (conj (fun pow H => conj (exact_pow_exponent pow H) (exact_pow_one pow H)) (conj exact_log_monotone (fun ex H => conj (exact_exp_monotone ex H) (exact_exp_zero ex H)))).
Qed.
Print Assumptions C91_library_conditions.

Example C91_samples :
  let best := f64_ops best_pow best_log10 best_exp in
  increasing_on (fun r => le64 zero r) (eval_parametric best 7 [f64_lit 2 0; one; f64_lit 1 (-1); one; zero]) /\
  increasing (eval_parametric best (-7) [f64_lit 2 0; one; f64_lit 1 (-1); Bopp one; zero]) /\
  increasing (eval_parametric best 8 [f64_lit 1 (-1); f64_lit 2 0; one; one; zero]) /\
  increasing_on (fun r => le64 (f64_lit 1 (-1)) r) (eval_parametric best (-8) [one; f64_lit 10 0; f64_lit 2 0; zero; f64_lit 1 (-1)]) /\
  increasing_on unit_interval (eval_parametric best 108 [f64_lit 2 0]) /\
  increasing_on unit_interval (eval_parametric best (-108) [f64_lit 2 0]) /\
  ~ increasing_on (fun r => le64 zero r) (eval_parametric best 7 [one; one; one; zero; zero]) /\
  ~ increasing (eval_parametric best (-8) [one; f64_lit 10 0; f64_lit 2 0; zero; f64_lit 1 (-1)]).
Proof. exact sample_others. Qed.

(** C92.  The sigmoid with a positive parameter k is increasing on all numbers, or never finite: it depends on whether 1 + exp(-k) is below 2
    after rounding. *)
Theorem C92_sigmoid :
  forall (pow : f64 -> f64 -> f64) (lg ex : f64 -> f64) k, monotone_exp ex -> exp_zero ex -> positive k ->
  let s := Bplus mode_NE one (ex (Bmult mode_NE (Bopp k) one)) in
  (lt64 s (f64_cst L2) /\ increasing (eval_parametric (f64_ops pow lg ex) 109 [k])) \/
  (s = f64_cst L2 /\ forall r y, eval_parametric (f64_ops pow lg ex) 109 [k] r = Some y -> ~ finite y).
Proof. exact sigmoid_dichotomy. Qed.
Print Assumptions C92_sigmoid.

Theorem C92_sigmoid_reversed_increasing :
  forall (pow : f64 -> f64 -> f64) (lg ex : f64 -> f64), monotone_exp ex -> forall k, positive k ->
    lt64 (Bplus mode_NE one (ex (Bmult mode_NE (Bopp k) one))) (f64_cst L2) -> monotone_log lg ->
    increasing_on unit_interval (eval_parametric (f64_ops pow lg ex) (-109) [k]).
Proof. exact inverse_sigmoid_mono. Qed.
Print Assumptions C92_sigmoid_reversed_increasing.

(** The same for every finite parameter, negative ones and zeros included. *)
Theorem C92_any_parameter :
  forall (pow : f64 -> f64 -> f64) (lg ex : f64 -> f64) k, monotone_exp ex -> exp_zero ex -> finite k ->
  let s := Bplus mode_NE one (ex (Bmult mode_NE (Bopp k) one)) in
  (s <> f64_cst L2 -> increasing (eval_parametric (f64_ops pow lg ex) 109 [k]) /\
     (monotone_log lg -> increasing_on unit_interval (eval_parametric (f64_ops pow lg ex) (-109) [k]))) /\
  (s = f64_cst L2 -> forall r y, eval_parametric (f64_ops pow lg ex) 109 [k] r = Some y -> ~ finite y).
Proof. exact sigmoid_any. Qed.
Print Assumptions C92_any_parameter.

(** An infinite parameter of either sign gives the step function, with NaN at 1/2; a NaN gives NaN. *)
Theorem C92_infinite_parameter :
  forall (pow : f64 -> f64 -> f64) (lg ex : f64 -> f64) s r,
  ex (B754_infinity false) = B754_infinity false -> ex (B754_infinity true) = zero -> nan_keeping ex ->
  (lt64 r (f64_cst Lhalf) -> eval_parametric (f64_ops pow lg ex) 109 [B754_infinity s] r = Some zero) /\
  (lt64 (f64_cst Lhalf) r -> eval_parametric (f64_ops pow lg ex) 109 [B754_infinity s] r = Some one) /\
  eval_parametric (f64_ops pow lg ex) 109 [B754_infinity s] (f64_cst Lhalf) = Some B754_nan.
Proof. exact infinite_sigmoid. Qed.
Print Assumptions C92_infinite_parameter.
(** Reversed, it answers 1/2 or NaN to every input, whatever the math library. *)
Theorem C92_infinite_parameter_reversed :
  forall (pow : f64 -> f64 -> f64) (lg ex : f64 -> f64) s r,
  eval_parametric (f64_ops pow lg ex) (-109) [B754_infinity s] r = Some (f64_cst Lhalf) \/
  eval_parametric (f64_ops pow lg ex) (-109) [B754_infinity s] r = Some B754_nan.
Proof. exact infinite_reversed. Qed.
Print Assumptions C92_infinite_parameter_reversed.
Example C92_infinite_reversed_half : forall s,
  eval_parametric (f64_ops best_pow best_log10 best_exp) (-109) [B754_infinity s] (f64_cst Lhalf) = Some (f64_cst Lhalf).
Proof. exact infinite_reversed_sample. Qed.
Theorem C92_nan_parameter :
  forall (pow : f64 -> f64 -> f64) (lg ex : f64 -> f64) r, nan_keeping ex ->
  eval_parametric (f64_ops pow lg ex) 109 [B754_nan] r = Some B754_nan.
Proof. exact nan_sigmoid. Qed.
Print Assumptions C92_nan_parameter.
Example C92_ends : best_exp (B754_infinity false) = B754_infinity false /\ best_exp (B754_infinity true) = zero /\ nan_keeping best_exp.
Proof. exact best_exp_ends. Qed.

(** Both cases occur: k = 1, and k = 2^-60. *)
Example C92_samples :
  let best := f64_ops best_pow best_log10 best_exp in
  increasing (eval_parametric best 109 [one]) /\ increasing_on unit_interval (eval_parametric best (-109) [one]) /\
  lt64 (Bplus mode_NE one (best_exp (Bmult mode_NE (Bopp one) one))) (f64_cst L2).
Proof. exact sample_sigmoid. Qed.
Example C92_flat : positive (f64_lit 1 (-60)) /\ Bplus mode_NE one (best_exp (Bmult mode_NE (Bopp (f64_lit 1 (-60))) one)) = f64_cst L2.
Proof. exact sample_flat. Qed.
Example C92_negative : finite (Bopp one) /\ Bplus mode_NE one (best_exp (Bmult mode_NE (Bopp (Bopp one)) one)) <> f64_cst L2.
Proof. exact sample_negative. Qed.
