(** Specification: the direction of a curve (C115), over the reals. *)
From Coq Require Import Reals ZArith List.
From Verif Require Import M_Base M_Curve M_CurveReal.
Open Scope R_scope.

(** On the inputs in [D] the evaluator answers with numbers, which rise strictly if [s] is positive and fall strictly if it is negative. *)
Definition goes (s : R) (t : Z) (ps : list R) (D : R -> Prop) : Prop :=
  forall x x', D x -> D x' -> x < x' ->
    exists y y', eval_real t ps x = Some (Fin y) /\ eval_real t ps x' = Some (Fin y') /\ 0 < s * (y' - y).
