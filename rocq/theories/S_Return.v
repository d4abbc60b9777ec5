(** Specification: how far a number may be from where it started when a computed curve and its computed
    reverse have been applied. *)
From Coq Require Import Reals.
From Flocq Require Import Core IEEE754.BinarySingleNaN.
From Verif Require Import M_F64 S_F64 S_Curve S_Accuracy.
Open Scope R_scope.

(** The relative error of a computed P^g, seen after [c] has been added to it; [s]: the strain of P. *)
Definition there_error (k g P s c : R) : R :=
  2 * relative (k + 8 * ulp_half * s * Rabs g) + ulp_half + ulp_half * Rabs (Rpower P g + c) / Rpower P g.
(** The error of (y^(1/g) - b) / a as computed, when y is off by the relative error [r]. *)
Definition again_error (k g a b P r : R) : R :=
  (2 * relative (k + ulp_half * (Rabs (ln P) + 9 / g)) + 4 * ulp_half) * ((P * exp (2 * r / g) + Rabs b) / Rabs a) + tiny
  + relative (2 * r / g) * (P / Rabs a).

(** Type 7: a log10 (b x^g + c) + d and back.  [W] = x^g, [V] = b W + c, [L] = log10 V, [E]: the error there,
    [m]: the error of the logarithm, [r]: that of W, [q]: that of the reverse before the root is taken. *)
Definition log_there (k kl a b c d W : R) : R :=
  let V := b * W + c in let L := log_10 V in let p := (2 * relative k + 4 * ulp_half) * strain (b * W) c in
  Rabs a * (2 * (kl * Rabs L + 2 * p) + 2 * ulp_half * Rabs L) + ulp_half * Rabs (a * L + d) + tiny.
Definition log_seen (a b c W E : R) : R := relative (4 * (E / Rabs a)) * ((b * W + c) / (b * W)).
Definition log_again (k a b c W E : R) : R :=
  let V := b * W + c in let m := E / Rabs a in
  (2 * relative (k + 4 * (3 * ulp_half * (Rabs (log_10 V) + m) + bpow radix2 (-1055))) + 2 * ulp_half) *
  (4 / 3 * ((V * exp (4 * m) + Rabs c) / (b * W))).
Definition log_return (k g x r q : R) : R :=
  relative (k + (ulp_half * (g * Rabs (ln x) + 2 * r) + 4 * q + 8 * ulp_half) / g) * (x * exp (2 * r / g)) + relative (2 * r / g) * x.

(** Type 8: a b^(c x + d) + e and back.  [r]: the relative error of the power there. *)
Definition exp_there (k a b c d e x : R) : R :=
  let V := Rpower b (c * x + d) in let q := Rabs (ln b) * (3 * ulp_half * (Rabs (c * x) + Rabs d) + tiny) in
  2 * relative (k + q) + 2 * ulp_half + (ulp_half * Rabs (a * V + e) + tiny) / (a * V).
Definition exp_return (kl b c d x r : R) : R :=
  let L := Rabs ((c * x + d) * log_10 b) + r in let q := Rabs (c * x + d) + 2 * r / Rabs (ln b) in
  (3 * (2 * (2 * kl * L + 8 * ulp_half) / Rabs (log_10 b) + ulp_half * q) + 4 * ulp_half * (q + Rabs d)) / Rabs c
  + bpow radix2 (-1054) + 2 * r / (Rabs (ln b) * Rabs c).

(** Type 108: N = 1 - (1 - x)^(1/g), y = N^(1/g) and back.  [r]: the relative error of y, [q]: that of 1 - y^g. *)
Definition s_there (k g x : R) : R :=
  let D := 1 - x in let V := Rpower D (/ g) in let N := 1 - V in
  let t := k + ulp_half * (Rabs (ln D) + 8) / g in let r := (2 * relative t + 2 * ulp_half) * strain 1 (- V) in
  relative (k + (ulp_half * Rabs (ln N) + 4 * r) / g).
Definition s_seen (g x r : R) : R := let V := Rpower (1 - x) (/ g) in relative (2 * r * g) * ((1 - V) / V).
Definition s_return (k g x q : R) : R :=
  let V := Rpower (1 - x) (/ g) in
  let t := k + 2 * ((2 * relative k + 2 * ulp_half) * (8 / (3 * V))) * g in
  (2 * relative t + 2 * ulp_half) * (1 + (1 - x) * exp (2 * q * g)) + relative (2 * q * g) * (1 - x).
