(** Specification: where a curve neither jumps nor leaves the numbers, over the reals. *)
From Coq Require Import Reals ZArith List.
From Verif Require Import M_Base M_Curve M_CurveReal S_Curve.
Open Scope R_scope.

(** The evaluator answers type [t] with parameters [ps] at [x] with a number, and at inputs close enough to [x]
    with numbers as close to it as one likes. *)
Definition steady (t : Z) (ps : list R) (x : R) : Prop :=
  exists y, eval_real t ps x = Some (Fin y) /\
    forall eps, 0 < eps -> exists delta, 0 < delta /\
      forall x', x - delta < x' < x + delta ->
        exists y', eval_real t ps x' = Some (Fin y') /\ y - eps < y' < y + eps.

(** The power of the part above zero: u^g for u > 0, else 0. *)
Definition above (u g : R) : R := if Rlt_dec 0 u then Rpower u g else 0.

(** The reversed curves only use gamma and slope when they are not too small to divide by. *)
Definition usable (g a : R) : Prop := tol <= Rabs g /\ tol <= Rabs a.

(** The straight part of a reversed curve, (y - f) / c; 0 if c is too small. *)
Definition line_undone (c f y : R) : R := if Rlt_dec (Rabs c) tol then 0 else (y - f) / c.

(** The power part of a reversed curve, ((y)^(1/g) - b) / a, for y >= 0; 0 below, and 0 if g or a is too small. *)
Definition undone (g a b y : R) : R :=
  if Rlt_dec y 0 then 0
  else if Rlt_dec (Rabs g) tol then 0
  else if Rlt_dec (Rabs a) tol then 0
  else (above y (1 / g) - b) / a.

(** Exponents whose powers of negative numbers are real. *)
Definition whole (y : R) : Prop := exists n : Z, y = IZR n.
