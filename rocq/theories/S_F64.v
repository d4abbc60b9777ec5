(** Specification: the order of [f64] values, and what is expected of a math library. *)
From Coq Require Import Reals.
From Flocq Require Import IEEE754.BinarySingleNaN.
From Verif Require Import M_F64.

(** Numerical order, infinities included; a NaN is not comparable. *)
Definition le64 (x y : f64) : Prop :=
  match x, y with
  | B754_nan, _ | _, B754_nan => False
  | B754_infinity true, _ | _, B754_infinity false => True
  | B754_infinity false, _ | _, B754_infinity true => False
  | _, _ => (B2R x <= B2R y)%R
  end.
Definition lt64 (x y : f64) : Prop := le64 x y /\ ~ le64 y x.
Definition number (x : f64) : Prop := x <> B754_nan.
Definition finite (x : f64) : Prop := is_finite x = true.
Definition zero : f64 := B754_zero false.
Definition positive (x : f64) : Prop := finite x /\ (0 < B2R x)%R.

(** A power function that is non-negative and weakly increasing on [0, infinity] for every positive exponent. *)
Definition monotone_pow (pow : f64 -> f64 -> f64) : Prop :=
  forall g x y, positive g -> le64 zero x -> le64 x y -> le64 zero (pow x g) /\ le64 (pow x g) (pow y g).
(** A computed curve is weakly increasing, and gives numbers, on all numbers. *)
Definition increasing (f : f64 -> option f64) : Prop :=
  forall r r', le64 r r' -> exists y y', f r = Some y /\ f r' = Some y' /\ le64 y y'.

Definition nan : f64 := B754_nan.
(** The C and IEEE rules for NaN in the math library: pow(x, 0) and pow(1, y) are 1 even on NaN, everything else keeps it. *)
Definition nan_keeping_pow (pow : f64 -> f64 -> f64) : Prop :=
  (forall y, (forall s, y <> B754_zero s) -> pow nan y = nan) /\ (forall x, x <> f64_lit 1 0 -> pow x nan = nan).
Definition nan_keeping (f : f64 -> f64) : Prop := f nan = nan.
Definition non_zero (x : f64) : Prop := forall s, x <> B754_zero s.

(** A power function whose logarithm is off by at most [k] whenever the exact result is between e^-700 and e^700
    (inside the normal range).  A correctly rounded one has k < 2^-52. *)
Definition accurate_pow (k : R) (pow : f64 -> f64 -> f64) : Prop :=
  forall x y, positive x -> finite y -> (Rabs (B2R y * ln (B2R x)) <= 700)%R ->
    positive (pow x y) /\ (Rabs (ln (B2R (pow x y)) - B2R y * ln (B2R x)) <= k)%R.
(** Half a unit in the last place of 1. *)
Definition ulp_half : R := (/ IZR (2 ^ 53))%R.
