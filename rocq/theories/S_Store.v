(** Specification: curves whose parameters were stored as s15Fixed16 numbers (C114). *)
From Coq Require Import ZArith Reals.
From Flocq Require Import Core IEEE754.BinarySingleNaN.
From Verif Require Import M_Base M_F64.
Open Scope R_scope.

(** [x'] is what is read back in the environment [e] after [x] was stored. *)
Definition stored (e : env) (x x' : f64) : Prop := s15f16_to_f64 e (f64_to_s15f16 x) = Some x'.
(** Half a step of the s15Fixed16 numbers. *)
Definition half_step : R := / 131072.
