(** C99: the values the curves fall back to, at binary64 and with any math library. *)
From Coq Require Import ZArith Reals Lra List.
From Flocq Require Import IEEE754.BinarySingleNaN.
From Verif Require Import M_Base M_F64 M_Curve M_CurveF64 M_CurveReal S_Curve S_F64 S_Guard P_S15 P_F64 P_Guard.
Open Scope R_scope.

(** With a parameter too small to divide by, the input (NaN and infinities included) is ignored. *)
Theorem C99_constant :
  forall (pow : f64 -> f64 -> f64) (lg ex : f64 -> f64) t ps r,
    blind t ps -> eval_parametric (f64_ops pow lg ex) t ps r = Some zero.
Proof. exact blind_zero. Qed.
Print Assumptions C99_constant.

(** With no other finite parameters. *)
Theorem C99_constant_only_then :
  forall t ps,
    judged t -> parameters_of (Z.abs t) = Some (length ps) -> Forall finite ps ->
    (forall pow lg ex r, eval_parametric (f64_ops pow lg ex) t ps r = Some zero) -> blind t ps.
Proof. exact blind_only. Qed.
Print Assumptions C99_constant_only_then.

Theorem C99_type1_reversed :
  forall (pow : f64 -> f64 -> f64) (lg ex : f64 -> f64) g r,
    tiny g -> ~ lt64 r zero -> exists y, eval_parametric (f64_ops pow lg ex) (-1) [g] r = Some y /\ finite y /\ B2R y = IZR (10 ^ 22).
Proof. exact type_m1_tiny. Qed.
Print Assumptions C99_type1_reversed.

(** Below the range of the forward curve. *)
Theorem C99_under_range :
  forall (pow : f64 -> f64 -> f64) (lg ex : f64 -> f64) t ps r,
    under_range t ps r -> eval_parametric (f64_ops pow lg ex) t ps r = Some zero.
Proof. exact under_zero. Qed.
Print Assumptions C99_under_range.

Theorem C99_type5_under_range :
  forall (pow : f64 -> f64 -> f64) (lg ex : f64 -> f64) g a b c d e f r,
    le64 (Bplus mode_NE (Bmult mode_NE c d) f) r -> lt64 r e ->
    eval_parametric (f64_ops pow lg ex) (-5) [g; a; b; c; d; e; f] r = Some zero.
Proof. exact type_m5_under. Qed.
Print Assumptions C99_type5_under_range.

Theorem C99_type3_under_range :
  forall (pow : f64 -> f64 -> f64) (lg ex : f64 -> f64) g a b c r,
    ~ tiny a -> lt64 r c -> eval_parametric (f64_ops pow lg ex) (-3) [g; a; b; c] r = Some (Bdiv mode_NE (Bopp b) a).
Proof. exact type_m3_under. Qed.
Print Assumptions C99_type3_under_range.

(** At c itself the reverse is 0 instead of -b/a. *)
Theorem C99_type3_at_the_offset :
  forall (pow : f64 -> f64 -> f64) (lg ex : f64 -> f64) g a b c,
    finite c -> eval_parametric (f64_ops pow lg ex) (-3) [g; a; b; c] c = Some zero.
Proof. exact type_m3_at. Qed.
Print Assumptions C99_type3_at_the_offset.

(** Parameters no guard looks at: base 1 divides by log 1 = 0. *)
Theorem C99_unit_base :
  forall (pow : f64 -> f64 -> f64) (lg ex : f64 -> f64) a c d e r y,
    lg (f64_cst L1) = zero -> finite c -> finite d -> ~ tiny a -> ~ tiny c -> ~ lt64 r e ->
    eval_parametric (f64_ops pow lg ex) (-8) [a; f64_cst L1; c; d; e] r = Some y -> ~ finite y.
Proof. exact type_m8_unit. Qed.
Print Assumptions C99_unit_base.

(** The guard of type -7 also refuses negative scales: the forward curve takes each value once, the reverse answers 0. *)
Theorem C99_type7_negative_scale_refuted :
  forall g a b c d r r' y,
    0 < g -> 0 < b -> a < 0 -> 0 < c -> 0 < r -> 0 <= r' ->
    eval_real 7 [g; a; b; c; d] r = Some (Fin y) ->
    (eval_real 7 [g; a; b; c; d] r' = Some (Fin y) <-> r' = r) /\ eval_real (-7) [g; a; b; c; d] y = Some (Fin 0).
Proof. exact type7_negative. Qed.
Print Assumptions C99_type7_negative_scale_refuted.

(** The hypotheses are met. *)
Example C99_blind_case : blind (-4) [f64_cst L2; zero; zero; zero; zero] /\ ~ blind (-4) [f64_cst L2; zero; zero; f64_cst L1; zero].
Proof. split; [exact (conj (or_intror zero_tiny) zero_tiny)|]. intros (_ & H). exact (one_not_tiny H). Qed.
(** The largest float the guard catches, and the next one, the literal 0.0001 itself. *)
Example C99_edge : tiny (f64_lit 7378697629483820 (-66)) /\ ~ tiny (f64_cst Ltol).
Proof. split; [apply tiny_iff; vm_compute; reflexivity|]. intros H. apply tiny_iff in H. vm_compute in H. discriminate. Qed.
Example C99_sample : forall pow lg ex,
  eval_parametric (f64_ops pow lg ex) (-6) [f64_cst L2; f64_cst L1; zero; f64_cst L1] (f64_cst Lhalf) = Some zero /\
  eval_parametric (f64_ops pow lg ex) (-3) [f64_cst L2; f64_cst L1; Bopp (f64_cst L2); f64_cst L1] (f64_cst Lhalf) = Some (f64_cst L2).
Proof.
  intros pow lg ex. assert (L : lt64 (f64_cst Lhalf) (f64_cst L1)) by (apply ltb_lt64; vm_compute; reflexivity). split.
  - now apply C99_under_range.
  - rewrite C99_type3_under_range; [|apply one_not_tiny|exact L]. apply (f_equal Some). apply B2SF_inj. vm_compute. reflexivity.
Qed.
