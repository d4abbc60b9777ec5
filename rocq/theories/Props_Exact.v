(** C88 (binary64 operations are rounded exact ones) and C89 (so are whole curves). *)
From Coq Require Import ZArith List Reals Lra.
From Flocq Require Import IEEE754.BinarySingleNaN.
From Verif Require Import M_Base M_F64 M_Curve M_CurveF64 M_CurveReal S_F64 S_Exact S_Pow P_Exact P_Exact2 P_Exact3 P_Pow.
Import ListNotations.
Open Scope Z_scope.
Open Scope R_scope.

(** C88.  Sums, differences and products of all values, infinities and NaN included. *)
Theorem C88_ring_operations :
  forall pow lg ex x y, let O := f64_ops pow lg ex in
  exact (f_add O x y) = rounded (ext_add (exact x) (exact y)) /\
  exact (f_sub O x y) = rounded (ext_sub (exact x) (exact y)) /\
  exact (f_mul O x y) = rounded (ext_mul (exact x) (exact y)) /\
  exact (f_neg O x) = ext_neg (exact x) /\ exact (f_abs O x) = ext_abs (exact x).
Proof. exact (fun _ _ _ x y => conj (exact_add x y) (conj (exact_sub x y) (conj (exact_mul x y) (conj (exact_neg x) (exact_abs x))))). Qed.
Print Assumptions C88_ring_operations.

(** Quotients; a negative zero as divisor turns the sign of an infinite quotient. *)
Theorem C88_division :
  forall pow lg ex x y, let O := f64_ops pow lg ex in
  (y <> neg_zero -> exact (f_div O x y) = rounded (ext_div (exact x) (exact y))) /\
  exact (f_div O x neg_zero) = ext_neg (ext_div (exact x) (Fin 0)).
Proof. exact (fun _ _ _ x y => conj (exact_div x y) (exact_div_neg_zero x)). Qed.
Print Assumptions C88_division.

(** Comparisons, maximum and the literals of the file. *)
Theorem C88_comparisons_and_literals :
  forall pow lg ex, let O := f64_ops pow lg ex in
  (forall x y, f_lt O x y = ext_lt (exact x) (exact y) /\ f_ge O x y = ext_ge (exact x) (exact y) /\ exact (f_max O x y) = ext_max (exact x) (exact y)) /\
  forall l, exact (f_lit O l) = rounded (ext_lit l).
Proof. exact (fun _ _ _ => conj (fun x y => conj (exact_ltb x y) (conj (exact_geb x y) (exact_max x y))) exact_cst). Qed.
Print Assumptions C88_comparisons_and_literals.

(** The exact pow, log10 and exp are those of C, special values included. *)
Theorem C88_math_functions :
  (forall x y z, c_pow x y z <-> ext_pow x y = z) /\ (forall x z, c_log10 x z <-> ext_log10 x = z) /\ (forall x z, c_exp x z <-> ext_exp x = z).
Proof. exact (conj pow_iff (conj log_iff exp_iff)). Qed.
Print Assumptions C88_math_functions.

(** C89.  A curve computed in binary64 is its formula with every operation rounded once, for every type, any number of parameters and every
    input: the same result, or the same index panic. *)
Theorem C89_rounded_formula :
  forall pow lg ex, exact_pow pow -> exact_log10 lg -> exact_exp ex ->
  forall type params r, Forall (fun p => p <> neg_zero) params -> r <> neg_zero ->
    option_map exact (eval_parametric (f64_ops pow lg ex) type params r) = eval_parametric round_ops type (map exact params) (exact r).
Proof. exact simulation. Qed.
Print Assumptions C89_rounded_formula.

(** Such a library exists. *)
Theorem C89_library_exists : exists pow lg ex, exact_pow pow /\ exact_log10 lg /\ exact_exp ex.
Proof. exact (ex_intro _ best_pow (ex_intro _ best_log10 (ex_intro _ best_exp best_exact))). Qed.
Print Assumptions C89_library_exists.

(** Its pow meets the weaker conditions of C75-C85. *)
Theorem C89_library_conditions :
  forall pow, exact_pow pow -> monotone_pow pow /\ nan_keeping_pow pow /\ accurate_pow (2 * ulp_half) pow.
Proof. exact (fun pow H => conj (exact_pow_monotone pow H) (conj (exact_pow_nan pow H) (exact_pow_accurate pow H))). Qed.
Print Assumptions C89_library_conditions.

(** Rounding shows: 2^53 + 1 is 2^53 in binary64; 2^1000 * 2^1000 is infinite. *)
Example rounding_shows :
  Bplus mode_NE (f64_lit 1 53) (f64_lit 1 0) = f64_lit 1 53 /\ exact (Bmult mode_NE (f64_lit 1 1000) (f64_lit 1 1000)) = PInf /\
  exact (Bmult mode_NE (f64_lit 1 (-1000)) (f64_lit (-1) (-1000))) = Fin 0.
Proof. exact rounding_visible. Qed.
(** Negative zeros have to be left out: type -3 divides by gamma unchecked. *)
Example neg_zero_matters : exact (Bdiv mode_NE (f64_lit 1 0) neg_zero) = NInf /\ exact (Bdiv mode_NE (f64_lit 1 0) (f64_lit 0 0)) = PInf.
Proof. exact (conj eq_refl eq_refl). Qed.
(** The hypotheses of C89 on the curve r^2 at 3, and its value. *)
Example square_of_three :
  Forall (fun p => p <> neg_zero) [f64_lit 2 0] /\ f64_lit 3 0 <> neg_zero /\
  option_map exact (eval_parametric (f64_ops best_pow best_log10 best_exp) 1 [f64_lit 2 0] (f64_lit 3 0)) = Some (rounded (Fin 9)).
Proof. exact square3. Qed.
