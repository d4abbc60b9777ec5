(** Specification: 16-bit words as fractions of 65535 (C113). *)
From Coq Require Import ZArith Reals.
From Flocq Require Import Core IEEE754.BinarySingleNaN.
From Verif Require Import M_F64 S_Exact.
Open Scope R_scope.

(** [x] is the binary64 number nearest to n / 65535. *)
Definition from_word (n : Z) (x : f64) : Prop := is_finite x = true /\ B2R x = nearest (IZR n / 65535).
(** The word that a number stands for: the nearest one. *)
Definition to_word (x : f64) : Z := Zfloor (65535 * B2R x + / 2).
