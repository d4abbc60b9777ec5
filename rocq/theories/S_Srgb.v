(** Specification: the IEC 61966-2.1 (sRGB) curve and its parameters. *)
From Coq Require Import Reals.
From Flocq Require Import IEEE754.BinarySingleNaN.
From Verif Require Import M_F64 S_F64.
Open Scope R_scope.

(** From encoded value to light. *)
Definition srgb (v : R) : R :=
  if Rlt_dec v (4045 / 100000) then v / (1292 / 100) else Rpower ((v + 55 / 1000) / (1055 / 1000)) (24 / 10).

(** Its parameters as ICC type 4 (gamma, a, b, c, d), each to within [t]. *)
Definition within (t : R) (x : f64) (v : R) : Prop := finite x /\ Rabs (B2R x - v) <= t.
Definition srgb_params (t : R) (g a b c d : f64) : Prop :=
  within t g (24 / 10) /\ within t a (1000 / 1055) /\ within t b (55 / 1055) /\ within t c (100 / 1292) /\ within t d (4045 / 100000).
