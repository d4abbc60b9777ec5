(** Specification: how near a computed number is to a real one, and what is expected of log10. *)
From Coq Require Import Reals.
From Flocq Require Import Core IEEE754.BinarySingleNaN.
From Verif Require Import M_F64 S_F64 S_Curve.
Open Scope R_scope.

(** [x] is a finite number within [t] of [v]. *)
Definition near (x : f64) (v t : R) : Prop := finite x /\ Rabs (B2R x - v) <= t.

(** How many times larger the terms of a sum are than the sum: 1 if they have the same sign, large if they cancel. *)
Definition strain (x y : R) : R := (Rabs x + Rabs y) / Rabs (x + y).

(** What an error of [t] in a logarithm is as a relative error. *)
Definition relative (t : R) : R := exp t - 1.

(** Less than any ordinary number. *)
Definition tiny : R := bpow radix2 (-1070).

(** A decimal logarithm with relative error at most [k].  A correctly rounded one has k = 2^-53. *)
Definition accurate_log (k : R) (lg : f64 -> f64) : Prop :=
  forall x, positive x -> near (lg x) (log_10 (B2R x)) (k * Rabs (log_10 (B2R x))).

(** The [g]-th root of [d], the error of its computed logarithm when powf is off by [k], and the error of (root - b) / a. *)
Definition nth_root (g d : R) : R := Rpower d (/ g).
Definition root_error (k g d : R) : R := k + ulp_half * (Rabs (ln d) + 8) / g.
Definition back_error (k g a b d : R) : R :=
  (2 * relative (root_error k g d) + 4 * ulp_half) * ((nth_root g d + Rabs b) / Rabs a) + tiny.

(** An exponential whose logarithm is off by at most [k]. *)
Definition accurate_exp (k : R) (ex : f64 -> f64) : Prop :=
  forall x, finite x -> Rabs (B2R x) <= 650 -> positive (ex x) /\ Rabs (ln (B2R (ex x)) - B2R x) <= k.
(** The error of a computed logistic function of strength [k], and that error relative to its value at 1. *)
Definition logistic_error (ke k : R) : R := relative (ke + 8 * ulp_half * Rabs k + tiny) / 3 + 4 * ulp_half.
Definition sigmoid_strain (ke k : R) : R := logistic_error ke k / Rabs (logistic k 1).
