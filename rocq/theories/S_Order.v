(** Specification: order of computed curves on part of the numbers, and the order a math library is assumed to keep. *)
From Coq Require Import ZArith.
From Flocq Require Import IEEE754.BinarySingleNaN.
From Verif Require Import M_F64 S_F64.

(** Weakly increasing, and giving numbers, on the numbers satisfying [D]. *)
Definition increasing_on (D : f64 -> Prop) (f : f64 -> option f64) : Prop :=
  forall r r', D r -> D r' -> le64 r r' -> exists y y', f r = Some y /\ f r' = Some y' /\ le64 y y'.
Definition one : f64 := f64_lit 1%Z 0%Z.
Definition unit_interval (r : f64) : Prop := le64 zero r /\ le64 r one.

(** log10 is weakly increasing on [0, infinity] (C: -infinity at 0). *)
Definition monotone_log (lg : f64 -> f64) : Prop := forall x y, le64 zero x -> le64 x y -> le64 (lg x) (lg y).
(** exp is non-negative and weakly increasing everywhere. *)
Definition monotone_exp (ex : f64 -> f64) : Prop := forall x y, le64 x y -> le64 zero (ex x) /\ le64 (ex x) (ex y).
(** Powers of a base above 1 are non-negative and weakly increasing in the exponent. *)
Definition monotone_exponent (pow : f64 -> f64 -> f64) : Prop :=
  forall b x y, finite b -> lt64 one b -> le64 x y -> le64 zero (pow b x) /\ le64 (pow b x) (pow b y).
(** Powers of 1 are 1 (C: for every exponent). *)
Definition one_pow (pow : f64 -> f64 -> f64) : Prop := forall y, pow one y = one.
(** exp of either zero is 1. *)
Definition exp_zero (ex : f64 -> f64) : Prop := forall s, ex (B754_zero s) = one.
