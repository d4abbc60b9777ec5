(** Specification: binary64 values with the sign of zero, and rounded exact arithmetic on them. *)
From Coq Require Import ZArith List Reals.
From Flocq Require Import Core IEEE754.BinarySingleNaN.
From Verif Require Import M_F64 M_Curve M_CurveReal S_Exact.
Import ListNotations.
Open Scope R_scope.

(** A value: not a number, an infinity, a zero (each with its sign, [true] is minus) or another real number. *)
Inductive sval := SNaN | SInf (s : bool) | SZero (s : bool) | SNum (v : R).

(** The value of a binary64 number. *)
Definition value (x : f64) : sval :=
  match x with
  | B754_nan => SNaN
  | B754_infinity s => SInf s
  | B754_zero s => SZero s
  | B754_finite _ _ _ _ => SNum (B2R x)
  end.
(** Forgetting the sign of zero. *)
Definition plain (x : sval) : ext :=
  match x with SNaN => NaN | SInf s => if s then NInf else PInf | SZero _ => Fin 0 | SNum v => Fin v end.
(** The sign bit. *)
Definition minus (x : sval) : bool :=
  match x with SNaN => false | SInf s | SZero s => s | SNum v => Rltb v 0 end.

(** A result rounded to binary64 (S_Exact.v).  An exact zero or infinity takes the sign [s]; what rounds to zero or to infinity keeps its own sign. *)
Definition result (s : bool) (x : ext) : sval :=
  match x with
  | NaN => SNaN
  | PInf | NInf => SInf s
  | Fin v =>
      if Reqb v 0 then SZero s
      else if Rlt_bool (Rabs (nearest v)) (bpow radix2 1024)
           then (if Reqb (nearest v) 0 then SZero (Rltb v 0) else SNum (nearest v))
           else SInf (Rltb v 0)
  end.
(** The sign of an infinity in a sum is the infinity's own; a zero sum is minus only if both terms are. *)
Definition sv_add (x y : sval) : sval :=
  match x, y with
  | SInf s, _ => result s (ext_add (plain x) (plain y))
  | _, SInf s => result s (ext_add (plain x) (plain y))
  | _, _ => result (minus x && minus y) (ext_add (plain x) (plain y))
  end.
Definition sv_neg (x : sval) : sval :=
  match x with SNaN => SNaN | SInf s => SInf (negb s) | SZero s => SZero (negb s) | SNum v => SNum (- v) end.
Definition sv_abs (x : sval) : sval :=
  match x with SNaN => SNaN | SInf _ => SInf false | SZero _ => SZero false | SNum v => SNum (Rabs v) end.
(** Products and quotients follow the rule of signs. *)
Definition sv_mul (x y : sval) : sval := result (xorb (minus x) (minus y)) (ext_mul (plain x) (plain y)).
Definition sv_div (x y : sval) : sval := result (xorb (minus x) (minus y)) (ext_div (plain x) (plain y)).
(** A power is minus exactly if the base is and the exponent is an odd integer. *)
Definition odd_integer (y : sval) : bool :=
  match y with SNum v => is_integer v && Z.odd (Int_part v) | _ => false end.
Definition sv_pow (x y : sval) : sval := result (minus x && odd_integer y) (ext_pow (plain x) (plain y)).
(** log10 of either zero is minus infinity, of 1 it is plus zero; exp is never minus. *)
Definition sv_log10 (x : sval) : sval := result (match x with SZero _ => true | _ => false end) (ext_log10 (plain x)).
Definition sv_exp (x : sval) : sval := result false (ext_exp (plain x)).
(** Which zero std's max returns for two zeros is not specified; the curves only compare the result. *)
Definition sv_max (x y : sval) : sval :=
  match x, y with SNaN, _ => y | _, SNaN => x | _, _ => if ext_lt (plain x) (plain y) then y else x end.

Definition signed_ops : FOps sval :=
  mkF (fun l => result false (ext_lit l)) sv_neg sv_abs sv_add (fun x y => sv_add x (sv_neg y)) sv_mul sv_div
      (fun x y => ext_lt (plain x) (plain y)) (fun x y => ext_ge (plain x) (plain y)) sv_max sv_pow sv_log10 sv_exp.

(** A math library with correctly rounded results and C's signs of zero and infinity. *)
Definition signed_library (pow : f64 -> f64 -> f64) (lg ex : f64 -> f64) : Prop :=
  (forall x y, value (pow x y) = sv_pow (value x) (value y)) /\ (forall x, value (lg x) = sv_log10 (value x)) /\ (forall x, value (ex x) = sv_exp (value x)).

(** The types that apply a power to a number that can be a zero with the sign of a zero input: 1, 6, 7 and the reverses of 1, 2, 4, 5 and 6. *)
Definition sees_zero_sign : list Z := [1; -1; -2; -4; -5; 6; -6; 7]%Z.
