(** Specification: the parametric curves as ICC.1 and the comments of para_curve.rs define them, over the reals. *)
From Coq Require Import Reals.
From Verif Require Import S_Curve.
Open Scope R_scope.

Definition icc1 (g x : R) : R := power x g.
Definition icc2 (g a b x : R) : R := if Rle_dec (- b / a) x then power (a * x + b) g else 0.
Definition icc3 (g a b c x : R) : R := if Rle_dec (- b / a) x then power (a * x + b) g + c else c.
Definition icc4 (g a b c d x : R) : R := if Rle_dec d x then power (a * x + b) g else c * x.
Definition icc5 (g a b c d e f x : R) : R := if Rle_dec d x then power (a * x + b) g + e else c * x + f.
Definition icc6 (g a b c x : R) : R := power (a * x + b) g + c.
Definition icc7 (g a b c d x : R) : R := a * log_10 (b * power x g + c) + d.
Definition icc8 (a b c d e x : R) : R := a * power b (c * x + d) + e.
