(** Specification: which numbers s15Fixed16 carries, and how well. *)
From Coq Require Import ZArith Reals.
From Flocq Require Import Core IEEE754.BinarySingleNaN.
From Verif Require Import M_Base M_F64.

(** The double that is not rounded half up: (2^53-1) * 2^-70 = (1/2 - 2^-54)/65536. *)
Definition exc : f64 := f64_lit (2 ^ 53 - 1) (-70).

(** Within reach of s15Fixed16; -32768 itself cannot be decoded with overflow checks. *)
Definition xyz_in_range (e : env) (x : f64) : Prop :=
  is_finite x = true /\ (- 32768 - / 131072 <= B2R x < 32768 - / 131072)%R /\
  (ovf e = true -> - 32768 + / 131072 <= B2R x)%R.
(** Half a step of s15Fixed16, and 2^-70 for [exc]. *)
Definition close (x x' : f64) : Prop :=
  is_finite x' = true /\ (Rabs (B2R x' - B2R x) <= / 131072 + bpow radix2 (-70))%R.
