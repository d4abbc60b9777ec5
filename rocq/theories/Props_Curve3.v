(** C75-C77: the parametric curves at binary64, the arithmetic rounding as it does.
    [pow], [lg], [ex]: the powf, log10 and exp of the platform. *)
From Coq Require Import ZArith Reals Lra.
From Flocq Require Import IEEE754.BinarySingleNaN.
From Verif Require Import M_Base M_F64 M_Curve M_CurveF64 S_F64 P_F64 P_Curve3.
Open Scope R_scope.
Notation tol64 := (f64_cst Ltol).

(** C75.  With any math library whose powf is monotone, the curves are monotone on all inputs, infinities included. *)
Theorem C75_type1 :
  forall (pow : f64 -> f64 -> f64) (lg ex : f64 -> f64) g,
    monotone_pow pow -> positive g -> increasing (eval_parametric (f64_ops pow lg ex) 1 [g]).
Proof. intros pow lg ex g MP. exact (type1_mono pow lg ex MP g). Qed.
Print Assumptions C75_type1.

Theorem C75_type1_reversed :
  forall (pow : f64 -> f64 -> f64) (lg ex : f64 -> f64) g,
    monotone_pow pow -> positive g -> increasing (eval_parametric (f64_ops pow lg ex) (-1) [g]).
Proof. intros pow lg ex g MP. exact (type_m1_mono pow lg ex MP g). Qed.
Print Assumptions C75_type1_reversed.

Theorem C75_type2 :
  forall (pow : f64 -> f64 -> f64) (lg ex : f64 -> f64) g a b,
    monotone_pow pow -> positive g -> positive a -> finite b -> increasing (eval_parametric (f64_ops pow lg ex) 2 [g; a; b]).
Proof. intros pow lg ex g a b MP. exact (type2_mono pow lg ex MP g a b). Qed.
Print Assumptions C75_type2.

Theorem C75_type2_reversed :
  forall (pow : f64 -> f64 -> f64) (lg ex : f64 -> f64) g a b,
    monotone_pow pow -> positive g -> positive a -> finite b -> increasing (eval_parametric (f64_ops pow lg ex) (-2) [g; a; b]).
Proof. intros pow lg ex g a b MP. exact (type_m2_mono pow lg ex MP g a b). Qed.
Print Assumptions C75_type2_reversed.

Theorem C75_type4 :
  forall (pow : f64 -> f64 -> f64) (lg ex : f64 -> f64) g a b c d,
    monotone_pow pow -> positive g -> positive a -> finite b -> positive c -> number d ->
  (forall y, eval_parametric (f64_ops pow lg ex) 4 [g; a; b; c; d] d = Some y -> le64 (Bmult mode_NE d c) y) ->
  increasing (eval_parametric (f64_ops pow lg ex) 4 [g; a; b; c; d]).
Proof. intros pow lg ex g a b c d MP. exact (type4_mono pow lg ex MP g a b c d). Qed.
Print Assumptions C75_type4.

Theorem C75_type5 :
  forall (pow : f64 -> f64 -> f64) (lg ex : f64 -> f64) g a b c d e f,
    monotone_pow pow -> positive g -> positive a -> finite b -> positive c -> number d -> finite e -> finite f ->
  (forall y, eval_parametric (f64_ops pow lg ex) 5 [g; a; b; c; d; e; f] d = Some y -> le64 (Bplus mode_NE (Bmult mode_NE d c) f) y) ->
  increasing (eval_parametric (f64_ops pow lg ex) 5 [g; a; b; c; d; e; f]).
Proof. intros pow lg ex g a b c d e f MP. exact (type5_mono pow lg ex MP g a b c d e f). Qed.
Print Assumptions C75_type5.

Theorem C75_type6 :
  forall (pow : f64 -> f64 -> f64) (lg ex : f64 -> f64) g a b c,
    monotone_pow pow -> positive g -> positive a -> finite b -> finite c -> increasing (eval_parametric (f64_ops pow lg ex) 6 [g; a; b; c]).
Proof. intros pow lg ex g a b c MP. exact (type6_mono pow lg ex MP g a b c). Qed.
Print Assumptions C75_type6.

Theorem C75_type3_refuted :
  forall (pow : f64 -> f64 -> f64) (lg ex : f64 -> f64) g,
    ~ increasing (eval_parametric (f64_ops pow lg ex) 3 [g; f64_cst L1; zero; f64_cst L1]).
Proof. exact type3_not_mono. Qed.
Print Assumptions C75_type3_refuted.

(** The hypotheses are met: the exact powf at exponent 1, and the identity. *)
Example C75_a_monotone_pow : monotone_pow (fun x _ => x).
Proof. intros g x y _ X L. now split. Qed.
Example C75_increasing : increasing (eval_parametric (f64_ops (fun x _ => x) (fun x => x) (fun x => x)) 2 [f64_cst L2; f64_cst L1; f64_cst Lhalf]).
Proof.
  apply C75_type2; try apply C75_a_monotone_pow; try reflexivity; (split; [reflexivity|]).
  - destruct (cst_val L2 2 0 eq_refl ltac:(lia) ltac:(lia)) as (-> & _). cbn. lra.
  - destruct cst1 as (-> & _). lra.
Qed.

(** C76.  What a NaN input becomes. *)
Theorem C76_type2 :
  forall (pow : f64 -> f64 -> f64) (lg ex : f64 -> f64) g a b,
    eval_parametric (f64_ops pow lg ex) 2 [g; a; b] nan = Some zero.
Proof. intros pow lg ex. exact (nan2 pow lg ex). Qed.
Print Assumptions C76_type2.

Theorem C76_type3 :
  forall (pow : f64 -> f64 -> f64) (lg ex : f64 -> f64) g a b c,
    eval_parametric (f64_ops pow lg ex) 3 [g; a; b; c] nan = Some (if f64_ltb (Babs a) tol64 then zero else c).
Proof. intros pow lg ex. exact (nan3 pow lg ex). Qed.
Print Assumptions C76_type3.

Theorem C76_type3_reversed :
  forall (pow : f64 -> f64 -> f64) (lg ex : f64 -> f64) g a b c,
    eval_parametric (f64_ops pow lg ex) (-3) [g; a; b; c] nan = Some (if f64_ltb (Babs a) tol64 then zero else Bdiv mode_NE (Bopp b) a).
Proof. intros pow lg ex. exact (nan_m3 pow lg ex). Qed.
Print Assumptions C76_type3_reversed.

Theorem C76_type4 :
  forall (pow : f64 -> f64 -> f64) (lg ex : f64 -> f64) g a b c d,
    eval_parametric (f64_ops pow lg ex) 4 [g; a; b; c; d] nan = Some nan.
Proof. intros pow lg ex. exact (nan4 pow lg ex). Qed.
Print Assumptions C76_type4.

Theorem C76_type4_reversed :
  forall (pow : f64 -> f64 -> f64) (lg ex : f64 -> f64) g a b c d,
    eval_parametric (f64_ops pow lg ex) (-4) [g; a; b; c; d] nan = Some (if f64_ltb (Babs c) tol64 then zero else nan).
Proof. intros pow lg ex. exact (nan_m4 pow lg ex). Qed.
Print Assumptions C76_type4_reversed.

Theorem C76_type5 :
  forall (pow : f64 -> f64 -> f64) (lg ex : f64 -> f64) g a b c d e f,
    eval_parametric (f64_ops pow lg ex) 5 [g; a; b; c; d; e; f] nan = Some nan.
Proof. intros pow lg ex. exact (nan5 pow lg ex). Qed.
Print Assumptions C76_type5.

Theorem C76_type5_reversed :
  forall (pow : f64 -> f64 -> f64) (lg ex : f64 -> f64) g a b c d e f,
    eval_parametric (f64_ops pow lg ex) (-5) [g; a; b; c; d; e; f] nan = Some (if f64_ltb (Babs c) tol64 then zero else nan).
Proof. intros pow lg ex. exact (nan_m5 pow lg ex). Qed.
Print Assumptions C76_type5_reversed.

Theorem C76_type1 :
  forall (pow : f64 -> f64 -> f64) (lg ex : f64 -> f64) g,
    nan_keeping_pow pow -> non_zero g -> eval_parametric (f64_ops pow lg ex) 1 [g] nan = Some nan.
Proof. intros pow lg ex g NP. exact (nan1 pow lg ex NP g). Qed.
Print Assumptions C76_type1.

Theorem C76_type1_reversed :
  forall (pow : f64 -> f64 -> f64) (lg ex : f64 -> f64) g,
    nan_keeping_pow pow -> finite g -> eval_parametric (f64_ops pow lg ex) (-1) [g] nan = Some (if f64_ltb (Babs g) tol64 then f64_cst Lplus_inf else nan).
Proof. intros pow lg ex g NP. exact (nan_m1 pow lg ex NP g). Qed.
Print Assumptions C76_type1_reversed.

Theorem C76_type2_reversed :
  forall (pow : f64 -> f64 -> f64) (lg ex : f64 -> f64) g a b,
    nan_keeping_pow pow -> finite g -> eval_parametric (f64_ops pow lg ex) (-2) [g; a; b] nan =
  Some (if (f64_ltb (Babs g) tol64 || f64_ltb (Babs a) tol64)%bool then zero else nan).
Proof. intros pow lg ex g a b NP. exact (nan_m2 pow lg ex NP g a b). Qed.
Print Assumptions C76_type2_reversed.

Theorem C76_type6 :
  forall (pow : f64 -> f64 -> f64) (lg ex : f64 -> f64) g a b c,
    nan_keeping_pow pow -> non_zero g -> eval_parametric (f64_ops pow lg ex) 6 [g; a; b; c] nan = Some nan.
Proof. intros pow lg ex g a b c NP. exact (nan6 pow lg ex NP g a b c). Qed.
Print Assumptions C76_type6.

Theorem C76_type6_reversed :
  forall (pow : f64 -> f64 -> f64) (lg ex : f64 -> f64) g a b c,
    nan_keeping_pow pow -> finite g -> eval_parametric (f64_ops pow lg ex) (-6) [g; a; b; c] nan = Some (if f64_ltb (Babs a) tol64 then zero else nan).
Proof. intros pow lg ex g a b c NP. exact (nan_m6 pow lg ex NP g a b c). Qed.
Print Assumptions C76_type6_reversed.

Theorem C76_type7 :
  forall (pow : f64 -> f64 -> f64) (lg ex : f64 -> f64) g a b c d,
    nan_keeping_pow pow -> nan_keeping lg -> non_zero g -> eval_parametric (f64_ops pow lg ex) 7 [g; a; b; c; d] nan = Some nan.
Proof. intros pow lg ex g a b c d NP. exact (nan7 pow lg ex NP g a b c d). Qed.
Print Assumptions C76_type7.

Theorem C76_type7_reversed :
  forall (pow : f64 -> f64 -> f64) (lg ex : f64 -> f64) g a b c d,
    nan_keeping_pow pow -> finite g -> eval_parametric (f64_ops pow lg ex) (-7) [g; a; b; c; d] nan =
  Some (if (f64_ltb g tol64 || f64_ltb a tol64 || f64_ltb b tol64)%bool then zero else nan).
Proof. intros pow lg ex g a b c d NP. exact (nan_m7 pow lg ex NP g a b c d). Qed.
Print Assumptions C76_type7_reversed.

Theorem C76_type8 :
  forall (pow : f64 -> f64 -> f64) (lg ex : f64 -> f64) a b c d e,
    nan_keeping_pow pow -> b <> f64_lit 1 0 -> eval_parametric (f64_ops pow lg ex) 8 [a; b; c; d; e] nan = Some nan.
Proof. intros pow lg ex a b c d e NP. exact (nan8 pow lg ex NP a b c d e). Qed.
Print Assumptions C76_type8.

Theorem C76_type108 :
  forall (pow : f64 -> f64 -> f64) (lg ex : f64 -> f64) g,
    nan_keeping_pow pow -> finite g -> eval_parametric (f64_ops pow lg ex) 108 [g] nan = Some (if f64_ltb (Babs g) tol64 then zero else nan).
Proof. intros pow lg ex g NP. exact (nan108 pow lg ex NP g). Qed.
Print Assumptions C76_type108.

Theorem C76_type108_reversed :
  forall (pow : f64 -> f64 -> f64) (lg ex : f64 -> f64) g,
    nan_keeping_pow pow -> non_zero g -> eval_parametric (f64_ops pow lg ex) (-108) [g] nan = Some nan.
Proof. intros pow lg ex g NP. exact (nan_m108 pow lg ex NP g). Qed.
Print Assumptions C76_type108_reversed.

Theorem C76_type8_reversed :
  forall (pow : f64 -> f64 -> f64) (lg ex : f64 -> f64) a b c d e,
    nan_keeping lg -> eval_parametric (f64_ops pow lg ex) (-8) [a; b; c; d; e] nan =
  Some (if (f64_ltb (Babs a) tol64 || f64_ltb (Babs c) tol64)%bool then zero else nan).
Proof. intros pow lg ex. exact (nan_m8 pow lg ex). Qed.
Print Assumptions C76_type8_reversed.

Theorem C76_type109 :
  forall (pow : f64 -> f64 -> f64) (lg ex : f64 -> f64) k,
    nan_keeping ex -> eval_parametric (f64_ops pow lg ex) 109 [k] nan = Some nan.
Proof. intros pow lg ex. exact (nan109 pow lg ex). Qed.
Print Assumptions C76_type109.

Theorem C76_type109_reversed :
  forall (pow : f64 -> f64 -> f64) (lg ex : f64 -> f64) k,
    nan_keeping lg -> eval_parametric (f64_ops pow lg ex) (-109) [k] nan = Some nan.
Proof. intros pow lg ex. exact (nan_m109 pow lg ex). Qed.
Print Assumptions C76_type109_reversed.

Example C76_a_nan_keeping_pow :
  nan_keeping_pow (fun x y => match x, y with _, B754_zero _ => f64_lit 1 0 | B754_nan, _ => nan | _, B754_nan => nan | _, _ => x end).
Proof.
  split.
  - intros y H. destruct y as [s| | |]; try reflexivity. now destruct (H s).
  - intros x _. now destruct x.
Qed.

(** C77.  What the rounding of the arithmetic alone decides. *)
Theorem C77_type1_negative_input :
  forall (pow : f64 -> f64 -> f64) (lg ex : f64 -> f64) g r,
    finite g -> lt64 r zero ->
  eval_parametric (f64_ops pow lg ex) 1 [g] r = Some (if Rlt_dec (Rabs (B2R g)) (1 + B2R tol64) then r else zero).
Proof. exact type1_negative64. Qed.
Print Assumptions C77_type1_negative_input.

Theorem C77_type1_reversed_negative_input :
  forall (pow : f64 -> f64 -> f64) (lg ex : f64 -> f64) g r,
    finite g -> lt64 r zero ->
  eval_parametric (f64_ops pow lg ex) (-1) [g] r = Some (if Rlt_dec (Rabs (B2R g - 1)) (B2R tol64) then r else zero).
Proof. exact type_m1_negative64. Qed.
Print Assumptions C77_type1_reversed_negative_input.

Theorem C77_flat_sigmoid :
  forall (pow : f64 -> f64 -> f64) (lg ex : f64 -> f64) k r y,
    ex (Bmult mode_NE (Bopp k) (f64_cst L1)) = f64_cst L1 -> eval_parametric (f64_ops pow lg ex) 109 [k] r = Some y -> ~ finite y.
Proof. exact flat_sigmoid64. Qed.
Print Assumptions C77_flat_sigmoid.

Theorem C77_type2_reversed_never_negative :
  forall (pow : f64 -> f64 -> f64) (lg ex : f64 -> f64) params r y,
    eval_parametric (f64_ops pow lg ex) (-2) params r = Some y -> ~ lt64 y zero.
Proof. exact type_m2_not_negative. Qed.
Print Assumptions C77_type2_reversed_never_negative.

Example C77_half_gamma : forall pow lg ex,
  eval_parametric (f64_ops pow lg ex) 1 [f64_cst Lhalf] (Bopp (f64_cst L2)) = Some (Bopp (f64_cst L2)).
Proof.
  intros. rewrite C77_type1_negative_input; [|reflexivity|apply ltb_lt64; vm_compute; reflexivity].
  destruct (Rlt_dec _ _) as [|N]; [reflexivity|]. exfalso. apply N.
  destruct (cst_val Lhalf 1 (-1) eq_refl ltac:(lia) ltac:(lia)) as (-> & _). pose proof tol64_range. rewrite Rabs_pos_eq; cbn -[f64_cst]; lra.
Qed.
