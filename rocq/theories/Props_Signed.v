(** C102: curves on numbers with signed zeros. *)
From Coq Require Import ZArith List Reals.
From Flocq Require Import IEEE754.BinarySingleNaN.
From Verif Require Import M_Base M_F64 M_Curve M_CurveF64 S_F64 S_Exact S_Signed P_Signed P_Signed2.
Import ListNotations.
Open Scope Z_scope.

(** C102.  [value] (S_Signed.v) tells all binary64 numbers apart, the two zeros included ... *)
Theorem C102_values_tell_numbers_apart : forall x y, value x = value y -> x = y.
Proof. exact value_inj. Qed.
Print Assumptions C102_values_tell_numbers_apart.

(** ... every operation is the exact one, rounded, with IEEE's sign of zero ... *)
Theorem C102_operations :
  forall pow lg ex x y, let O := f64_ops pow lg ex in
  value (f_add O x y) = sv_add (value x) (value y) /\ value (f_sub O x y) = sv_add (value x) (sv_neg (value y)) /\
  value (f_mul O x y) = sv_mul (value x) (value y) /\ value (f_div O x y) = sv_div (value x) (value y) /\
  value (f_neg O x) = sv_neg (value x) /\ value (f_abs O x) = sv_abs (value x).
Proof. exact (fun _ _ _ x y => conj (value_add x y) (conj (value_sub x y) (conj (value_mul x y) (conj (value_div x y) (conj (value_neg x) (value_abs x)))))). Qed.
Print Assumptions C102_operations.

(** ... so a curve is its formula with every operation rounded, bit for bit (NaN payloads aside): every type, any number of parameters,
    negative zeros allowed everywhere.  Removes the exclusions of C89. *)
Theorem C102_rounded_formula :
  forall pow lg ex, signed_library pow lg ex -> forall type params r,
    option_map value (eval_parametric (f64_ops pow lg ex) type params r) = eval_parametric signed_ops type (map value params) (value r).
Proof. exact signed_simulation. Qed.
Print Assumptions C102_rounded_formula.

(** Such a library exists, and is correctly rounded in the sense of C89. *)
Theorem C102_library :
  (exists pow lg ex, signed_library pow lg ex) /\ forall pow lg ex, signed_library pow lg ex -> exact_pow pow /\ exact_exp ex.
Proof. exact (conj (ex_intro _ ieee_pow (ex_intro _ ieee_log10 (ex_intro _ ieee_exp ieee_library))) signed_exact). Qed.
Print Assumptions C102_library.

(** The sign of a zero input.  The types in [sees_zero_sign] can show it ... *)
Theorem C102_zero_input_seen :
  forall pow lg ex, signed_library pow lg ex -> forall type, In type sees_zero_sign ->
    exists ps, option_map exact (eval_parametric (f64_ops pow lg ex) type ps zero) <> option_map exact (eval_parametric (f64_ops pow lg ex) type ps neg_zero).
Proof. exact seen. Qed.
Print Assumptions C102_zero_input_seen.

(** ... not with a positive exponent ... *)
Theorem C102_zero_input_positive_exponent :
  forall pow lg ex, signed_library pow lg ex -> forall type g ps, In type sees_zero_sign -> positive g ->
    option_map exact (eval_parametric (f64_ops pow lg ex) type (g :: ps) zero) = option_map exact (eval_parametric (f64_ops pow lg ex) type (g :: ps) neg_zero).
Proof. exact blind_positive. Qed.
Print Assumptions C102_zero_input_positive_exponent.

(** ... and the other types never, whatever the parameters. *)
Theorem C102_zero_input_unseen :
  forall pow lg ex, signed_library pow lg ex -> forall type ps, ~ In type sees_zero_sign ->
    option_map exact (eval_parametric (f64_ops pow lg ex) type ps zero) = option_map exact (eval_parametric (f64_ops pow lg ex) type ps neg_zero).
Proof. exact blind. Qed.
Print Assumptions C102_zero_input_unseen.

(** A gamma curve with exponent -1 sends the two zeros to the two infinities; a zero gamma of type -3 shows its sign, too. *)
Example C102_examples :
  let eval := eval_parametric (f64_ops ieee_pow ieee_log10 ieee_exp) in
  eval 1 [f64_lit (-1) 0] zero = Some (B754_infinity false) /\ eval 1 [f64_lit (-1) 0] neg_zero = Some (B754_infinity true) /\
  eval (-3) [zero; f64_lit 1 0; f64_lit 0 0; f64_lit 0 0] (f64_lit 2 0) = Some (B754_infinity false) /\
  eval (-3) [neg_zero; f64_lit 1 0; f64_lit 0 0; f64_lit 0 0] (f64_lit 2 0) = Some zero.
Proof.
  exact (conj (seen1 _ _ _ ieee_library false) (conj (seen1 _ _ _ ieee_library true) (conj (gamma_sign _ _ _ ieee_library false) (gamma_sign _ _ _ ieee_library true)))).
Qed.
