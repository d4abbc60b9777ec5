(** C103: curves with neutral parameters. *)
From Coq Require Import ZArith List Reals.
From Flocq Require Import IEEE754.BinarySingleNaN.
From Verif Require Import M_Base M_F64 M_Curve M_CurveF64 M_CurveReal S_Exact S_Signed S_Neutral P_Signed P_Neutral.
Import ListNotations.
Open Scope Z_scope.

(** C103.  With gamma and slopes 1 and everything else 0, types 1, 4, 5 and the reverses of 1, 4, 5 leave every binary64 number as it is
    (infinities and NaN too); types 2, 3 and the reverse of 3 send what is not above zero to zero; 6 and the reverses of 2 and 6 send what
    is below zero to zero.  The break [d] of types 4 and 5 must not be below zero. *)
Theorem C103_neutral_parameters :
  forall pow lg ex, first_power pow -> forall d, ext_ge (exact d) (Fin 0) = true ->
  forall type ps f, In (type, ps, f) (neutral d) -> forall r,
    option_map exact (eval_parametric (f64_ops pow lg ex) type ps r) = Some (f (exact r)).
Proof. exact neutral_eval. Qed.
Print Assumptions C103_neutral_parameters.

(** A break below zero: types 4, 5 and the reverse of 5 send the numbers between it and zero to zero, though both branches are the same line ... *)
Theorem C103_break_below_zero :
  forall pow lg ex, first_power pow -> forall d r, ext_ge (exact r) (exact d) = true -> ext_lt (exact r) (Fin 0) = true ->
  forall type ps f, In (type, ps, f) (neutral d) -> In type [4; 5; -5] ->
    option_map exact (eval_parametric (f64_ops pow lg ex) type ps r) = Some (Fin 0).
Proof. exact break_below. Qed.
Print Assumptions C103_break_below_zero.

(** ... the reverse of type 4 keeps them, whatever the break. *)
Theorem C103_reverse_of_4 :
  forall pow lg ex, first_power pow -> forall d r,
    option_map exact (eval_parametric (f64_ops pow lg ex) (-4) [f64_lit 1 0; f64_lit 1 0; f64_lit 0 0; f64_lit 1 0; d] r) = Some (exact r).
Proof. exact type_m4_any. Qed.
Print Assumptions C103_reverse_of_4.

(** A gamma of 1 changes no bit, the sign of zero included, with a library whose first power is its argument ... *)
Theorem C103_gamma_one :
  forall pow lg ex r, (forall x, pow x (f64_lit 1 0) = x) ->
    eval_parametric (f64_ops pow lg ex) 1 [f64_lit 1 0] r = Some r /\ eval_parametric (f64_ops pow lg ex) (-1) [f64_lit 1 0] r = Some r.
Proof. exact gamma_same. Qed.
Print Assumptions C103_gamma_one.

(** ... as a correctly rounding one with C's signs is; a correctly rounding one has at least the right values. *)
Theorem C103_libraries :
  (forall pow lg ex, signed_library pow lg ex -> forall x, pow x (f64_lit 1 0) = x) /\ (forall pow, exact_pow pow -> first_power pow).
Proof. exact (conj signed_first exact_first). Qed.
Print Assumptions C103_libraries.

(** The library of C102 is one; a type-4 curve with break 1/2 and one with break -1, at -1/2. *)
Example C103_examples :
  let eval := eval_parametric (f64_ops ieee_pow ieee_log10 ieee_exp) in
  let c d := [f64_lit 1 0; f64_lit 1 0; f64_lit 0 0; f64_lit 1 0; d] in
  option_map exact (eval 4 (c (f64_lit 1 (-1))) (f64_lit (-1) (-1))) = Some (exact (f64_lit (-1) (-1))) /\
  option_map exact (eval 4 (c (f64_lit (-1) 0)) (f64_lit (-1) (-1))) = Some (Fin 0) /\
  eval 1 [f64_lit 1 0] neg_zero = Some neg_zero.
Proof. exact neutral_examples. Qed.
