(** Specification: when a curve gives up, over binary64 values. *)
From Coq Require Import Reals ZArith List.
From Flocq Require Import IEEE754.BinarySingleNaN.
From Verif Require Import M_F64 S_F64 S_Curve.
Import ListNotations.
Open Scope R_scope.

(** A parameter too close to zero to divide by. *)
Definition tiny (p : f64) : Prop := finite p /\ Rabs (B2R p) < tol.
(** A parameter below the tolerance, whatever its sign. *)
Definition below (p : f64) : Prop := p = B754_infinity true \/ (finite p /\ B2R p < tol).

(** The parameters with which a curve ignores its input and returns 0. *)
Definition blind (t : Z) (ps : list f64) : Prop :=
  match t, ps with
  | 2, [g; a; b] => tiny a
  | (-2), [g; a; b] => tiny g \/ tiny a
  | 3, [g; a; b; c] => tiny a
  | (-3), [g; a; b; c] => tiny a
  | (-4), [g; a; b; c; d] => (tiny g \/ tiny a) /\ tiny c
  | (-5), [g; a; b; c; d; e; f] => (tiny g \/ tiny a) /\ tiny c
  | (-6), [g; a; b; c] => tiny a
  | (-7), [g; a; b; c; d] => below g \/ below a \/ below b
  | (-8), [a; b; c; d; e] => tiny a \/ tiny c
  | 108, [g] => tiny g
  | _, _ => False
  end%Z.
(** The types for which these are all such parameters. *)
Definition judged (t : Z) : Prop := In t [1; -1; -2; -3; 4; -4; 5; -5; 6; -6; 7; -7; 8; -8; 108; -108; 109; -109]%Z.

(** Inputs below everything the forward curve yields. *)
Definition under_range (t : Z) (ps : list f64) (r : f64) : Prop :=
  match t, ps with
  | (-2), [g; a; b] => lt64 r zero
  | (-6), [g; a; b; c] => lt64 r c
  | (-8), [a; b; c; d; e] => lt64 r e
  | _, _ => False
  end%Z.
