(** C96-C97: how near the computed curves are to their formulas.
    [pow], [lg]: the powf and log10 of the platform, off by at most [k] and [kl]; 2^-53 is [ulp_half]. *)
From Coq Require Import ZArith Reals Lra.
From Flocq Require Import Core IEEE754.BinarySingleNaN.
From Verif Require Import M_Base M_F64 M_Curve M_CurveF64 S_F64 S_Curve S_Accuracy P_S15 P_F64 P_CurveErr P_Ideal P_CurveErr4 P_Acc P_Acc2 P_Acc3 P_Acc4 P_Acc5 P_Acc6 P_Acc7 P_Acc9 P_Acc8.
Open Scope R_scope.

(** C96.  x^g. *)
Theorem C96_type1 :
  forall (pow : f64 -> f64 -> f64) (lg ex : f64 -> f64) (k : R), accurate_pow k pow ->
  forall g x, finite g -> positive x -> Rabs (B2R g * ln (B2R x)) <= 700 ->
  exists y, eval_parametric (f64_ops pow lg ex) 1 [g] x = Some y /\
    near y (Rpower (B2R x) (B2R g)) (relative k * Rpower (B2R x) (B2R g)).
Proof. exact type1_near. Qed.
Print Assumptions C96_type1.

(** (a x + b)^g. *)
Theorem C96_type2 :
  forall (pow : f64 -> f64 -> f64) (lg ex : f64 -> f64) (k : R), accurate_pow k pow ->
  forall g a b, finite g -> finite a -> finite b -> forall x, finite x ->
  let P := B2R a * B2R x + B2R b in let s := strain (B2R a * B2R x) (B2R b) in
  0 < P -> Rabs (ln P) <= 600 -> Rabs (B2R g * ln P) <= 600 -> 8 * ulp_half * s <= 1 -> 8 * ulp_half * s * Rabs (B2R g) <= 1 ->
  let V := Rpower P (B2R g) in let t := k + 8 * ulp_half * s * Rabs (B2R g) in
  B2R (f64_cst Ltol) <= B2R a ->
  exists y, eval_parametric (f64_ops pow lg ex) 2 [g; a; b] x = Some y /\ near y V (relative t * V).
Proof. exact type2_near. Qed.
Print Assumptions C96_type2.

(** (a x + b)^g + c. *)
Theorem C96_type3 :
  forall (pow : f64 -> f64 -> f64) (lg ex : f64 -> f64) (k : R), accurate_pow k pow ->
  forall g a b, finite g -> finite a -> finite b -> forall x, finite x ->
  let P := B2R a * B2R x + B2R b in let s := strain (B2R a * B2R x) (B2R b) in
  0 < P -> Rabs (ln P) <= 600 -> Rabs (B2R g * ln P) <= 600 -> 8 * ulp_half * s <= 1 -> 8 * ulp_half * s * Rabs (B2R g) <= 1 ->
  let V := Rpower P (B2R g) in let t := k + 8 * ulp_half * s * Rabs (B2R g) in 0 <= k <= / 100 ->
  forall c, B2R (f64_cst Ltol) <= B2R a -> finite c -> Rabs (B2R c) <= bpow radix2 900 -> 0 <= B2R x ->
  exists y, eval_parametric (f64_ops pow lg ex) 3 [g; a; b; c] x = Some y /\
    near y (V + B2R c) ((2 * relative t + ulp_half) * V + ulp_half * Rabs (V + B2R c)).
Proof. exact type3_near. Qed.
Print Assumptions C96_type3.

(** Type 4: (a x + b)^g from d on, c x below. *)
Theorem C96_type4 :
  forall (pow : f64 -> f64 -> f64) (lg ex : f64 -> f64) (k : R), accurate_pow k pow ->
  forall g a b, finite g -> finite a -> finite b -> forall x, finite x ->
  let P := B2R a * B2R x + B2R b in let s := strain (B2R a * B2R x) (B2R b) in
  0 < P -> Rabs (ln P) <= 600 -> Rabs (B2R g * ln P) <= 600 -> 8 * ulp_half * s <= 1 -> 8 * ulp_half * s * Rabs (B2R g) <= 1 ->
  let V := Rpower P (B2R g) in let t := k + 8 * ulp_half * s * Rabs (B2R g) in
  forall c d, finite d -> B2R d <= B2R x ->
  exists y, eval_parametric (f64_ops pow lg ex) 4 [g; a; b; c; d] x = Some y /\ near y V (relative t * V).
Proof. exact type4_upper_near. Qed.
Print Assumptions C96_type4.
Theorem C96_type4_line :
  forall (pow : f64 -> f64 -> f64) (lg ex : f64 -> f64) g a b c d x, finite c -> finite d -> finite x ->
  B2R x < B2R d -> Rabs (B2R c * B2R x) <= bpow radix2 900 ->
  exists y, eval_parametric (f64_ops pow lg ex) 4 [g; a; b; c; d] x = Some y /\
    near y (B2R c * B2R x) (ulp_half * Rabs (B2R c * B2R x) + tiny).
Proof. exact type4_lower_near. Qed.
Print Assumptions C96_type4_line.

(** Type 5: (a x + b)^g + e from d on, c x + f below. *)
Theorem C96_type5 :
  forall (pow : f64 -> f64 -> f64) (lg ex : f64 -> f64) (k : R), accurate_pow k pow ->
  forall g a b, finite g -> finite a -> finite b -> forall x, finite x ->
  let P := B2R a * B2R x + B2R b in let s := strain (B2R a * B2R x) (B2R b) in
  0 < P -> Rabs (ln P) <= 600 -> Rabs (B2R g * ln P) <= 600 -> 8 * ulp_half * s <= 1 -> 8 * ulp_half * s * Rabs (B2R g) <= 1 ->
  let V := Rpower P (B2R g) in let t := k + 8 * ulp_half * s * Rabs (B2R g) in 0 <= k <= / 100 ->
  forall c d e f, finite d -> B2R d <= B2R x -> finite e -> Rabs (B2R e) <= bpow radix2 900 ->
  exists y, eval_parametric (f64_ops pow lg ex) 5 [g; a; b; c; d; e; f] x = Some y /\
    near y (V + B2R e) ((2 * relative t + ulp_half) * V + ulp_half * Rabs (V + B2R e)).
Proof. exact type5_upper_near. Qed.
Print Assumptions C96_type5.
Theorem C96_type5_line :
  forall (pow : f64 -> f64 -> f64) (lg ex : f64 -> f64) g a b c d e f x, finite c -> finite d -> finite f -> finite x -> B2R x < B2R d ->
  let Q := Rabs (B2R c * B2R x) + Rabs (B2R f) in Q <= bpow radix2 900 ->
  exists y, eval_parametric (f64_ops pow lg ex) 5 [g; a; b; c; d; e; f] x = Some y /\
    near y (B2R c * B2R x + B2R f) (3 * ulp_half * Q + tiny).
Proof. exact type5_lower_near. Qed.
Print Assumptions C96_type5_line.

(** (a x + b)^g + c, at negative x too. *)
Theorem C96_type6 :
  forall (pow : f64 -> f64 -> f64) (lg ex : f64 -> f64) (k : R), accurate_pow k pow ->
  forall g a b, finite g -> finite a -> finite b -> forall x, finite x ->
  let P := B2R a * B2R x + B2R b in let s := strain (B2R a * B2R x) (B2R b) in
  0 < P -> Rabs (ln P) <= 600 -> Rabs (B2R g * ln P) <= 600 -> 8 * ulp_half * s <= 1 -> 8 * ulp_half * s * Rabs (B2R g) <= 1 ->
  let V := Rpower P (B2R g) in let t := k + 8 * ulp_half * s * Rabs (B2R g) in 0 <= k <= / 100 ->
  forall c, finite c -> Rabs (B2R c) <= bpow radix2 900 ->
  exists y, eval_parametric (f64_ops pow lg ex) 6 [g; a; b; c] x = Some y /\
    near y (V + B2R c) ((2 * relative t + ulp_half) * V + ulp_half * Rabs (V + B2R c)).
Proof. exact type6_near. Qed.
Print Assumptions C96_type6.

(** a log10 (b x^g + c) + d. *)
Theorem C96_type7 :
  forall (pow : f64 -> f64 -> f64) (lg ex : f64 -> f64) (k kl : R), accurate_pow k pow -> 0 <= k <= / 100 -> accurate_log kl lg -> 0 <= kl <= / 100 ->
  forall g a b c d x, finite g -> finite a -> finite b -> finite c -> finite d -> positive x ->
  let W := Rpower (B2R x) (B2R g) in let V := B2R b * W + B2R c in let s := strain (B2R b * W) (B2R c) in
  let L := log_10 V in let p := (2 * relative k + 4 * ulp_half) * s in
  Rabs (B2R g * ln (B2R x)) <= 600 -> 0 < V -> Rabs (ln V) <= 600 -> p <= / 4 -> Rabs (B2R a) <= bpow radix2 800 -> Rabs (B2R d) <= bpow radix2 800 ->
  exists y, eval_parametric (f64_ops pow lg ex) 7 [g; a; b; c; d] x = Some y /\
    near y (B2R a * L + B2R d)
      (Rabs (B2R a) * (2 * (kl * Rabs L + 2 * p) + 2 * ulp_half * Rabs L) + ulp_half * Rabs (B2R a * L + B2R d) + tiny).
Proof. exact type7_near. Qed.
Print Assumptions C96_type7.

(** a b^(c x + d) + e. *)
Theorem C96_type8 :
  forall (pow : f64 -> f64 -> f64) (lg ex : f64 -> f64) (k : R), accurate_pow k pow -> 0 <= k <= / 100 ->
  forall a b c d e x, finite a -> positive b -> finite c -> finite d -> finite e -> finite x ->
  let Q := Rabs (B2R c * B2R x) + Rabs (B2R d) in let W := B2R c * B2R x + B2R d in let V := Rpower (B2R b) W in
  let q := Rabs (ln (B2R b)) * (3 * ulp_half * Q + tiny) in
  Q <= bpow radix2 900 -> Rabs (W * ln (B2R b)) <= 600 -> q <= 1 -> Rabs (B2R a * V) + Rabs (B2R e) <= bpow radix2 900 ->
  exists y, eval_parametric (f64_ops pow lg ex) 8 [a; b; c; d; e] x = Some y /\
    near y (B2R a * V + B2R e) ((2 * relative (k + q) + 2 * ulp_half) * Rabs (B2R a * V) + ulp_half * Rabs (B2R a * V + B2R e) + tiny).
Proof. exact type8_near. Qed.
Print Assumptions C96_type8.

(** The S curve (1 - (1 - x)^(1/g))^(1/g). *)
Theorem C96_type108 :
  forall (pow : f64 -> f64 -> f64) (lg ex : f64 -> f64) (k : R), accurate_pow k pow -> 0 <= k <= / 100 ->
  forall g x, finite g -> B2R (f64_cst Ltol) <= B2R g <= 10000 -> finite x ->
  let D := 1 - B2R x in let t := k + ulp_half * (Rabs (ln D) + 8) / B2R g in let V := Rpower D (/ B2R g) in let N := 1 - V in
  let r := (2 * relative t + 2 * ulp_half) * strain 1 (- V) in
  0 < D -> Rabs (ln D) <= 600 -> Rabs (ln D) <= 600 * B2R g -> t <= / 10 ->
  0 < N -> Rabs (ln N) <= 600 -> Rabs (ln N) <= 600 * B2R g -> r <= / 4 -> 2 * r <= B2R g ->
  exists y, eval_parametric (f64_ops pow lg ex) 108 [g] x = Some y /\
    near y (Rpower N (/ B2R g)) (relative (k + (ulp_half * Rabs (ln N) + 4 * r) / B2R g) * Rpower N (/ B2R g)).
Proof. exact type108_near. Qed.
Print Assumptions C96_type108.

(** The sigmoid. *)
Theorem C96_type109 :
  forall (pow : f64 -> f64 -> f64) (lg ex : f64 -> f64) (ke : R), accurate_exp ke ex -> 0 <= ke <= / 100 ->
  forall k x, finite k -> Rabs (B2R k) <= 600 -> B2R k <> 0 -> finite x -> 0 <= B2R x <= 1 ->
  ke + 8 * ulp_half * Rabs (B2R k) + tiny <= / 10 -> let r := sigmoid_strain ke (B2R k) in r <= / 8 ->
  exists y, eval_parametric (f64_ops pow lg ex) 109 [k] x = Some y /\ near y (sigmoid (B2R k) (B2R x)) (2 * r + 3 * ulp_half).
Proof. exact type109_near. Qed.
Print Assumptions C96_type109.

(** With the powf of C80 and ordinary parameters: 46 bits. *)
Theorem C96_ordinary :
  forall (pow : f64 -> f64 -> f64) (lg ex : f64 -> f64), accurate_pow (2 * ulp_half) pow ->
  forall g a b x, finite g -> Rabs (B2R g) <= 10 ->
  finite a -> B2R (f64_cst Ltol) <= B2R a -> finite b -> 0 <= B2R b -> finite x -> 0 <= B2R x -> let P := B2R a * B2R x + B2R b in
  0 < P -> Rabs (ln P) <= 60 ->
  exists y, eval_parametric (f64_ops pow lg ex) 2 [g; a; b] x = Some y /\ near y (Rpower P (B2R g)) (/ IZR (2 ^ 46) * Rpower P (B2R g)).
Proof. exact ordinary_power. Qed.
Print Assumptions C96_ordinary.

(** Each hypothesis met, with the exact powf rounded ([n40] is 2^-40). *)
Example C96_cases :
  some_near (calc 1 [two] two) 4 n40 /\
  some_near (calc 2 [two; one; one] one) 4 n40 /\
  some_near (calc 3 [two; one; one; one] one) 5 n40 /\
  some_near (calc 4 [two; one; one; two; half] one) 4 n40 /\
  some_near (calc 4 [two; one; one; two; one] half) 1 n40 /\
  some_near (calc 5 [two; one; one; two; half; one; one] one) 5 n40 /\
  some_near (calc 5 [two; one; one; two; one; one; one] half) 2 n40 /\
  some_near (calc 6 [two; one; one; one] one) 5 n40 /\
  some_near (calc 7 [one; one; one; one; one] one) (log_10 2 + 1) n40 /\
  some_near (calc 8 [one; two; one; one; one] one) 5 n40 /\
  some_near (calc 108 [one] half) (/ 2) n40 /\
  some_near (calc_exp 109 [one] one) 1 n40.
Proof. exact (conj case1 (conj case2 (conj case3 (conj case4 (conj case4_line (conj case5 (conj case5_line (conj case6 (conj case7 (conj case8 (conj case108 case109))))))))))). Qed.

(** C97.  y^(1/g). *)
Theorem C97_type1 :
  forall (pow : f64 -> f64 -> f64) (lg ex : f64 -> f64) (k : R), accurate_pow k pow -> 0 <= k <= / 100 ->
  forall g, finite g -> B2R (f64_cst Ltol) <= B2R g <= 10000 ->
  forall y, positive y -> Rabs (ln (B2R y)) <= 600 * B2R g -> let v := Rpower (B2R y) (/ B2R g) in
  exists x, eval_parametric (f64_ops pow lg ex) (-1) [g] y = Some x /\
    near x v (relative (k + ulp_half * Rabs (ln (B2R y)) / B2R g) * v).
Proof. exact type_m1_near. Qed.
Print Assumptions C97_type1.

(** (y^(1/g) - b) / a, not below 0. *)
Theorem C97_type2 :
  forall (pow : f64 -> f64 -> f64) (lg ex : f64 -> f64) (k : R), accurate_pow k pow -> 0 <= k <= / 100 ->
  forall g a b, finite g -> B2R (f64_cst Ltol) <= B2R g <= 10000 -> finite a -> B2R (f64_cst Ltol) <= Rabs (B2R a) ->
  finite b -> Rabs (B2R b) <= bpow radix2 900 -> forall y, finite y ->
  0 < B2R y -> Rabs (ln (B2R y)) <= 600 * B2R g -> root_error k (B2R g) (B2R y) <= 1 ->
  exists x, eval_parametric (f64_ops pow lg ex) (-2) [g; a; b] y = Some x /\
    near x (Rmax 0 ((nth_root (B2R g) (B2R y) - B2R b) / B2R a)) (back_error k (B2R g) (B2R a) (B2R b) (B2R y)).
Proof. exact type_m2_near. Qed.
Print Assumptions C97_type2.

(** ((y - c)^(1/g) - b) / a. *)
Theorem C97_type3 :
  forall (pow : f64 -> f64 -> f64) (lg ex : f64 -> f64) (k : R), accurate_pow k pow -> 0 <= k <= / 100 ->
  forall g a b, finite g -> B2R (f64_cst Ltol) <= B2R g <= 10000 -> finite a -> B2R (f64_cst Ltol) <= Rabs (B2R a) ->
  finite b -> Rabs (B2R b) <= bpow radix2 900 -> forall y, finite y ->
  forall c, finite c -> 0 < B2R y - B2R c -> Rabs (ln (B2R y - B2R c)) <= 600 -> Rabs (ln (B2R y - B2R c)) <= 600 * B2R g ->
  root_error k (B2R g) (B2R y - B2R c) <= 1 ->
  exists x, eval_parametric (f64_ops pow lg ex) (-3) [g; a; b; c] y = Some x /\
    near x ((nth_root (B2R g) (B2R y - B2R c) - B2R b) / B2R a) (back_error k (B2R g) (B2R a) (B2R b) (B2R y - B2R c)).
Proof. exact type_m3_near. Qed.
Print Assumptions C97_type3.

(** Type 4, from the forward value [v] of the break on and below it. *)
Theorem C97_type4 :
  forall (pow : f64 -> f64 -> f64) (lg ex : f64 -> f64) (k : R), accurate_pow k pow -> 0 <= k <= / 100 ->
  forall g a b, finite g -> B2R (f64_cst Ltol) <= B2R g <= 10000 -> finite a -> B2R (f64_cst Ltol) <= Rabs (B2R a) ->
  finite b -> Rabs (B2R b) <= bpow radix2 900 -> forall y, finite y ->
  forall c d v, finite d -> eval_parametric (f64_ops pow lg ex) 4 [g; a; b; c; d] d = Some v -> positive v -> le64 v y ->
  Rabs (ln (B2R y)) <= 600 * B2R g -> root_error k (B2R g) (B2R y) <= 1 ->
  exists x, eval_parametric (f64_ops pow lg ex) (-4) [g; a; b; c; d] y = Some x /\
    near x ((nth_root (B2R g) (B2R y) - B2R b) / B2R a) (back_error k (B2R g) (B2R a) (B2R b) (B2R y)).
Proof. exact type_m4_upper_near. Qed.
Print Assumptions C97_type4.
Theorem C97_type4_line :
  forall (pow : f64 -> f64 -> f64) (lg ex : f64 -> f64) g a b y, finite y ->
  forall c d v, finite c -> B2R (f64_cst Ltol) <= Rabs (B2R c) -> finite d ->
  eval_parametric (f64_ops pow lg ex) 4 [g; a; b; c; d] d = Some v -> positive v -> lt64 y v -> Rabs (B2R y) <= bpow radix2 900 ->
  exists x, eval_parametric (f64_ops pow lg ex) (-4) [g; a; b; c; d] y = Some x /\
    near x (B2R y / B2R c) (3 * ulp_half * Rabs (B2R y / B2R c) + tiny).
Proof. exact type_m4_lower_near. Qed.
Print Assumptions C97_type4_line.

(** Type 5, from the value the line has at the break on and below it. *)
Theorem C97_type5 :
  forall (pow : f64 -> f64 -> f64) (lg ex : f64 -> f64) (k : R), accurate_pow k pow -> 0 <= k <= / 100 ->
  forall g a b, finite g -> B2R (f64_cst Ltol) <= B2R g <= 10000 -> finite a -> B2R (f64_cst Ltol) <= Rabs (B2R a) ->
  finite b -> Rabs (B2R b) <= bpow radix2 900 -> forall y, finite y ->
  forall c d e f, le64 (Bplus mode_NE (Bmult mode_NE c d) f) y ->
  finite e -> 0 < B2R y - B2R e -> Rabs (ln (B2R y - B2R e)) <= 600 -> Rabs (ln (B2R y - B2R e)) <= 600 * B2R g ->
  root_error k (B2R g) (B2R y - B2R e) <= 1 ->
  exists x, eval_parametric (f64_ops pow lg ex) (-5) [g; a; b; c; d; e; f] y = Some x /\
    near x ((nth_root (B2R g) (B2R y - B2R e) - B2R b) / B2R a) (back_error k (B2R g) (B2R a) (B2R b) (B2R y - B2R e)).
Proof. exact type_m5_upper_near. Qed.
Print Assumptions C97_type5.
Theorem C97_type5_line :
  forall (pow : f64 -> f64 -> f64) (lg ex : f64 -> f64) g a b y, finite y ->
  forall c d e f, lt64 y (Bplus mode_NE (Bmult mode_NE c d) f) -> finite c -> B2R (f64_cst Ltol) <= Rabs (B2R c) ->
  finite f -> Rabs (B2R y - B2R f) <= bpow radix2 900 ->
  exists x, eval_parametric (f64_ops pow lg ex) (-5) [g; a; b; c; d; e; f] y = Some x /\
    near x ((B2R y - B2R f) / B2R c) (3 * ulp_half * Rabs ((B2R y - B2R f) / B2R c) + bpow radix2 (-1055)).
Proof. exact type_m5_lower_near. Qed.
Print Assumptions C97_type5_line.

Theorem C97_type6 :
  forall (pow : f64 -> f64 -> f64) (lg ex : f64 -> f64) (k : R), accurate_pow k pow -> 0 <= k <= / 100 ->
  forall g a b, finite g -> B2R (f64_cst Ltol) <= B2R g <= 10000 -> finite a -> B2R (f64_cst Ltol) <= Rabs (B2R a) ->
  finite b -> Rabs (B2R b) <= bpow radix2 900 -> forall y, finite y ->
  forall c, finite c -> 0 < B2R y - B2R c -> Rabs (ln (B2R y - B2R c)) <= 600 -> Rabs (ln (B2R y - B2R c)) <= 600 * B2R g ->
  root_error k (B2R g) (B2R y - B2R c) <= 1 ->
  exists x, eval_parametric (f64_ops pow lg ex) (-6) [g; a; b; c] y = Some x /\
    near x ((nth_root (B2R g) (B2R y - B2R c) - B2R b) / B2R a) (back_error k (B2R g) (B2R a) (B2R b) (B2R y - B2R c)).
Proof. exact type_m6_near. Qed.
Print Assumptions C97_type6.

(** ((10^((y - d) / a) - c) / b)^(1/g). *)
Theorem C97_type7 :
  forall (pow : f64 -> f64 -> f64) (lg ex : f64 -> f64) (k : R), accurate_pow k pow -> 0 <= k <= / 100 ->
  forall g a b c d y, finite g -> B2R (f64_cst Ltol) <= B2R g <= 10000 -> finite a -> B2R (f64_cst Ltol) <= B2R a ->
  finite b -> B2R (f64_cst Ltol) <= B2R b -> finite c -> finite d -> finite y ->
  let q := (B2R y - B2R d) / B2R a in let t := k + 4 * (3 * ulp_half * Rabs q + bpow radix2 (-1055)) in let T := Rpower 10 q in
  let D := T - B2R c in let r := (2 * relative t + 2 * ulp_half) * strain T (- B2R c) in let M := D / B2R b in
  Rabs (B2R y - B2R d) <= bpow radix2 900 -> Rabs q <= 100 -> 0 < D -> Rabs (ln D) <= 600 -> Rabs (ln M) <= 600 -> Rabs (ln M) <= 600 * B2R g ->
  r <= / 4 -> 2 * r + 4 * ulp_half <= B2R g ->
  exists x, eval_parametric (f64_ops pow lg ex) (-7) [g; a; b; c; d] y = Some x /\
    near x (Rpower M (/ B2R g)) (relative (k + (ulp_half * Rabs (ln M) + 4 * r + 8 * ulp_half) / B2R g) * Rpower M (/ B2R g)).
Proof. exact type_m7_near. Qed.
Print Assumptions C97_type7.

(** (log10 ((y - e) / a) / log10 b - d) / c. *)
Theorem C97_type8 :
  forall (pow : f64 -> f64 -> f64) (lg ex : f64 -> f64) (kl : R), accurate_log kl lg -> 0 <= kl <= / 100 ->
  forall a b c d e y, finite a -> B2R (f64_cst Ltol) <= B2R a -> positive b -> B2R b <> 1 -> finite c -> B2R (f64_cst Ltol) <= Rabs (B2R c) ->
  finite d -> Rabs (B2R d) <= bpow radix2 800 -> finite e -> finite y ->
  let D := B2R y - B2R e in let M := D / B2R a in let q := log_10 M / log_10 (B2R b) in
  let w := 2 * (2 * kl * Rabs (log_10 M) + 8 * ulp_half) / Rabs (log_10 (B2R b)) + ulp_half * Rabs q in
  0 < D -> Rabs (ln D) <= 600 -> Rabs (ln M) <= 600 ->
  exists x, eval_parametric (f64_ops pow lg ex) (-8) [a; b; c; d; e] y = Some x /\
    near x ((q - B2R d) / B2R c) ((3 * w + 4 * ulp_half * (Rabs q + Rabs (B2R d))) / Rabs (B2R c) + bpow radix2 (-1054)).
Proof. exact type_m8_near. Qed.
Print Assumptions C97_type8.

(** 1 - (1 - y^g)^g. *)
Theorem C97_type108 :
  forall (pow : f64 -> f64 -> f64) (lg ex : f64 -> f64) (k : R), accurate_pow k pow -> 0 <= k <= / 100 ->
  forall g y, finite g -> positive y ->
  let V := Rpower (B2R y) (B2R g) in let N := 1 - V in let r := (2 * relative k + 2 * ulp_half) * strain 1 (- V) in let W := Rpower N (B2R g) in
  let t := k + 2 * r * Rabs (B2R g) in
  Rabs (B2R g * ln (B2R y)) <= 600 -> 0 < N -> Rabs (ln N) <= 600 -> Rabs (B2R g * ln N) <= 600 -> r <= / 4 -> t <= 1 ->
  exists x, eval_parametric (f64_ops pow lg ex) (-108) [g] y = Some x /\ near x (1 - W) ((2 * relative t + 2 * ulp_half) * (1 + W)).
Proof. exact type_m108_near. Qed.
Print Assumptions C97_type108.

(** The reverse sigmoid: not the inverse (C61), but what its formula says with a decimal logarithm. *)
Theorem C97_type109 :
  forall (pow : f64 -> f64 -> f64) (lg ex : f64 -> f64) (ke : R), accurate_exp ke ex -> 0 <= ke <= / 100 ->
  forall kl, accurate_log kl lg -> 0 <= kl <= / 100 ->
  forall k y, finite k -> Rabs (B2R k) <= 600 -> B2R k <> 0 -> finite y -> 0 <= B2R y <= 1 ->
  ke + 8 * ulp_half * Rabs (B2R k) + tiny <= / 10 -> let r := sigmoid_strain ke (B2R k) in r <= / 8 ->
  let W := 2 * logistic (B2R k) 1 * (B2R y - / 2) + / 2 in let L := log_10 ((1 - W) / W) in
  let p := (2 * r + 8 * ulp_half) / (W * (1 - W)) in p <= / 8 ->
  exists x, eval_parametric (f64_ops pow lg ex) (-109) [k] y = Some x /\
    near x ((- L / B2R k + 1) / 2) (((kl + 2 * ulp_half) * Rabs L + 2 * p) / Rabs (B2R k) + 2 * ulp_half).
Proof. exact type_m109_near. Qed.
Print Assumptions C97_type109.

(** 16-bit values, gamma between 1/4 and 4: 45 bits. *)
Theorem C97_ordinary :
  forall (pow : f64 -> f64 -> f64) (lg ex : f64 -> f64), accurate_pow (2 * ulp_half) pow ->
  forall g a b y, finite g -> / 4 <= B2R g <= 4 ->
  finite a -> B2R (f64_cst Ltol) <= Rabs (B2R a) -> finite b -> Rabs (B2R b) <= bpow radix2 900 -> finite y -> / 65536 <= B2R y <= 1 ->
  let Y := Rpower (B2R y) (/ B2R g) in
  exists x, eval_parametric (f64_ops pow lg ex) (-2) [g; a; b] y = Some x /\
    near x (Rmax 0 ((Y - B2R b) / B2R a)) (/ IZR (2 ^ 45) * ((Y + Rabs (B2R b)) / Rabs (B2R a)) + tiny).
Proof. exact ordinary_root. Qed.
Print Assumptions C97_ordinary.

(** Each hypothesis met. *)
Example C97_cases :
  some_near (calc (-1) [half] two) 4 n40 /\
  some_near (calc (-2) [half; one; one] two) 3 n40 /\
  some_near (calc (-3) [half; one; one; half] two) (5 / 4) n40 /\
  some_near (calc (-6) [half; one; one; half] two) (5 / 4) n40 /\
  some_near (calc (-4) [two; one; one; one; one] nine) 2 n40 /\
  some_near (calc (-4) [two; one; one; one; one] half) (/ 2) n40 /\
  some_near (calc (-5) [half; one; one; one; half; half; half] two) (5 / 4) n40 /\
  some_near (calc (-5) [half; one; one; one; one; one; one] half) (- / 2) n40 /\
  some_near (calc (-7) [one; one; one; one; one] two) 9 n40 /\
  some_near (calc (-8) [half; two; one; half; one] two) (/ 2) n40 /\
  some_near (calc (-108) [one] half) (/ 2) n40 /\
  some_near (calc_exp (-109) [one] one) ((/ ln 10 + 1) / 2) n40.
Proof. exact (conj caser1 (conj caser2 (conj caser3 (conj caser6 (conj caser4 (conj caser4_line (conj caser5 (conj caser5_line (conj caser7 (conj caser8 (conj caser108 caser109))))))))))). Qed.
