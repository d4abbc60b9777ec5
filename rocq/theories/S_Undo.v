(** Specification: where the reverse of a curve takes a value back. *)
From Coq Require Import Reals ZArith List.
From Verif Require Import M_Base M_Curve M_CurveReal S_Curve.
Open Scope R_scope.

(** The evaluator answers type [t] at [r] with a number, and type [-t] gives [r] back for it. *)
Definition undoes (t : Z) (ps : list R) (r : R) : Prop :=
  exists y, eval_real t ps r = Some (Fin y) /\ eval_real (- t) ps y = Some (Fin r).

(** The number [v] is where the power part of types 4 and 5 sends [r], with slope [a] and offset [b]. *)
Definition on_power (g a b r v : R) : Prop :=
  (0 < a * r + b /\ v = power (a * r + b) g) \/ (a * r + b = 0 /\ 0 < g /\ v = 0).

(** [y] is not below the value of the power part of type 4 at its break [d]. *)
Definition past_break (g a b d y : R) : Prop :=
  (0 < a * d + b /\ power (a * d + b) g <= y) \/ (a * d + b < 0 /\ 0 <= y) \/
  (a * d + b = 0 /\ ((0 < g /\ 0 <= y) \/ (g = 0 /\ 1 <= y))).

(** [y] is the value of type 8 at 0. *)
Definition at_zero8 (a b d e y : R) : Prop :=
  (0 < b /\ y = a * power b d + e) \/ (b = 0 /\ ((0 < d /\ y = e) \/ (d = 0 /\ y = a + e))) \/
  (b < 0 /\ exists n, d = IZR n /\ y = a * powerRZ b n + e).

(** [y] is the value of type 4 (type 5) at [x]. *)
Definition value4 (g a b c d x y : R) : Prop :=
  (x < d /\ y = c * x) \/ (d <= x /\ ((0 < a * x + b /\ y = power (a * x + b) g) \/ (a * x + b <= 0 /\ y = 0))).
Definition value5 (g a b c d e f x y : R) : Prop :=
  (x < d /\ y = c * x + f) \/ (d <= x /\ ((0 < a * x + b /\ y = power (a * x + b) g + e) \/ (a * x + b <= 0 /\ y = e))).
