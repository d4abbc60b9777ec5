(** Specification: pow, log10 and exp of C99 (7.12.6, 7.12.7 and the special cases of F.9.3 and F.9.4), on values without a sign of zero. *)
From Coq Require Import ZArith Reals.
From Verif Require Import M_CurveReal.
Open Scope R_scope.

(** [c_pow x y z]: pow(x, y) is z.  One rule for every line of F.9.4.4, then the ordinary values. *)
Inductive c_pow : ext -> ext -> ext -> Prop :=
| pow_0_neg y : y < 0 -> c_pow (Fin 0) (Fin y) PInf                                        (* infinite; its sign is that of the zero *)
| pow_0_pos y : 0 < y -> c_pow (Fin 0) (Fin y) (Fin 0)
| pow_m1_pinf : c_pow (Fin (-1)) PInf (Fin 1)
| pow_m1_ninf : c_pow (Fin (-1)) NInf (Fin 1)
| pow_1_any y : c_pow (Fin 1) y (Fin 1)                                                    (* even if y is a NaN *)
| pow_any_0 x : c_pow x (Fin 0) (Fin 1)                                                    (* even if x is a NaN *)
| pow_neg_nonint x y : x < 0 -> (forall n, y <> IZR n) -> c_pow (Fin x) (Fin y) NaN
| pow_small_ninf x : Rabs x < 1 -> c_pow (Fin x) NInf PInf
| pow_big_ninf x : 1 < Rabs x -> c_pow (Fin x) NInf (Fin 0)
| pow_small_pinf x : Rabs x < 1 -> c_pow (Fin x) PInf (Fin 0)
| pow_big_pinf x : 1 < Rabs x -> c_pow (Fin x) PInf PInf
| pow_ninf_neg y : y < 0 -> c_pow NInf (Fin y) (Fin 0)
| pow_ninf_odd n : (0 < 2 * n + 1)%Z -> c_pow NInf (Fin (IZR (2 * n + 1))) NInf
| pow_ninf_pos y : 0 < y -> (forall n, y <> IZR (2 * n + 1)) -> c_pow NInf (Fin y) PInf
| pow_pinf_neg y : y < 0 -> c_pow PInf (Fin y) (Fin 0)
| pow_pinf_pos y : 0 < y -> c_pow PInf (Fin y) PInf
| pow_inf_pinf x : x = PInf \/ x = NInf -> c_pow x PInf PInf                               (* |x| > 1 *)
| pow_inf_ninf x : x = PInf \/ x = NInf -> c_pow x NInf (Fin 0)
| pow_nan_l y : y <> Fin 0 -> c_pow NaN y NaN
| pow_nan_r x : x <> Fin 1 -> c_pow x NaN NaN
| pow_pos x y : 0 < x -> c_pow (Fin x) (Fin y) (Fin (exp (y * ln x)))
| pow_neg_int x n : x < 0 -> c_pow (Fin x) (Fin (IZR n)) (Fin (powerRZ x n)).

Inductive c_log10 : ext -> ext -> Prop :=
| log_0 : c_log10 (Fin 0) NInf
| log_neg x : x < 0 -> c_log10 (Fin x) NaN
| log_ninf : c_log10 NInf NaN
| log_pinf : c_log10 PInf PInf
| log_nan : c_log10 NaN NaN
| log_pos z : c_log10 (Fin (Rpower 10 z)) (Fin z).

Inductive c_exp : ext -> ext -> Prop :=
| exp_fin x : c_exp (Fin x) (Fin (exp x))
| exp_ninf : c_exp NInf (Fin 0)
| exp_pinf : c_exp PInf PInf
| exp_nan : c_exp NaN NaN.
