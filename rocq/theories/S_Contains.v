(** Specification: comparing curves of different types (C106). *)
From Coq Require Import Reals List.
From Verif Require Import M_F64 M_Curve M_CurveF64 M_CurveReal S_Exact.
Open Scope R_scope.

(** Both evaluations end, with numerically equal results (both NaN, or the same value; zeros have no sign). *)
Definition alike (o o' : option f64) : Prop := exists y y', o = Some y /\ o' = Some y' /\ exact y = exact y'.
Definition is_nil (x : f64) : Prop := exact x = Fin 0.
(** Below the threshold (0.0001) under which the curves give up; NaN is not. *)
Definition tiny (x : f64) : Prop := ext_lt (ext_abs (exact x)) (exact (f64_cst Ltol)) = true.
Definition less (x y : f64) : Prop := ext_lt (exact x) (exact y) = true.
Definition no_less (x y : f64) : Prop := ext_ge (exact x) (exact y) = true.
Definition infinite (x : f64) : Prop := exact x = PInf \/ exact x = NInf.
