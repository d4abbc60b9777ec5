(** Specification: binary64 as rounded real arithmetic with infinities and NaN. *)
From Coq Require Import Reals.
From Flocq Require Import Core IEEE754.BinarySingleNaN.
From Verif Require Import M_F64 M_Curve M_CurveReal.
Open Scope R_scope.

(** The value of a binary64 number; both zeros are 0. *)
Definition exact (x : f64) : ext :=
  match x with
  | B754_nan => NaN
  | B754_infinity s => if s then NInf else PInf
  | _ => Fin (B2R x)
  end.
(** Rounding to nearest, ties to even, 53 bits, smallest positive number 2^-1074, as if the exponent had no upper limit; what then
    reaches 2^1024 becomes infinite. *)
Definition nearest (v : R) : R := round radix2 (FLT_exp (-1074) 53) ZnearestE v.
Definition rounded (x : ext) : ext :=
  match x with
  | Fin v => if Rlt_bool (Rabs (nearest v)) (bpow radix2 1024) then Fin (nearest v) else if Rlt_bool v 0 then NInf else PInf
  | _ => x
  end.

(** Every operation done exactly, then rounded. *)
Definition round_ops : FOps ext :=
  mkF (fun l => rounded (ext_lit l)) ext_neg ext_abs
      (fun x y => rounded (ext_add x y)) (fun x y => rounded (ext_sub x y))
      (fun x y => rounded (ext_mul x y)) (fun x y => rounded (ext_div x y))
      ext_lt ext_ge ext_max
      (fun x y => rounded (ext_pow x y)) (fun x => rounded (ext_log10 x)) (fun x => rounded (ext_exp x)).

(** A math library that returns correctly rounded results.  The sign of a zero is left open, except that log10 does not give -0, and so
    is the power of -0 to a negative exponent (an infinity of either sign). *)
Definition neg_zero : f64 := B754_zero true.
Definition exact_pow (pow : f64 -> f64 -> f64) : Prop :=
  forall x y, (x = neg_zero -> ext_lt (exact y) (Fin 0) = false) -> exact (pow x y) = rounded (ext_pow (exact x) (exact y)).
Definition exact_log10 (lg : f64 -> f64) : Prop := forall x, exact (lg x) = rounded (ext_log10 (exact x)) /\ lg x <> neg_zero.
Definition exact_exp (ex : f64 -> f64) : Prop := forall x, exact (ex x) = rounded (ext_exp (exact x)).
