(** Specification: the curve families over the real numbers, and the table of curve types. *)
From Coq Require Import Reals ZArith List.
Import ListNotations.
Open Scope R_scope.

(** x^y for x >= 0. *)
Definition power (x y : R) : R := if Req_EM_T x 0 then 0 else Rpower x y.
Definition log_10 (x : R) : R := ln x / ln 10.

(** The tolerance below which a parameter counts as zero. *)
Definition tol : R := / 10000.

(** Type number -> how many parameters it takes. *)
Definition parameters_of (t : Z) : option nat :=
  match t with
  | 1 => Some 1%nat | 2 => Some 3%nat | 3 => Some 4%nat | 4 => Some 5%nat | 5 => Some 7%nat
  | 6 => Some 4%nat | 7 => Some 5%nat | 8 => Some 5%nat | 108 => Some 1%nat | 109 => Some 1%nat
  | _ => None
  end%Z.

(** The type numbers in table order. *)
Definition type_order : list Z := [1; 2; 3; 4; 5; 6; 7; 8; 108; 109]%Z.

(** Where the power part of the two-part families starts. *)
Definition break_value (g a b d : R) : R := power (Rmax 0 (a * d + b)) g.

(** The S curve of strength [g]. *)
Definition s_curve (g x : R) : R := power (1 - power (1 - x) (1 / g)) (1 / g).
(** The sigmoid of strength [k], rescaled to fix 0 and 1. *)
Definition logistic (k t : R) : R := 1 / (1 + exp (- k * t)) - / 2.
Definition sigmoid (k x : R) : R := / 2 / logistic k 1 * logistic k (2 * x - 1) + / 2.
