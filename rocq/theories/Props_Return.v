(** C100: how far from the start a computed curve and its computed reverse lead, for the types C80-C82 do not cover.
    The bounds are those of S_Return; [k] and [kl]: how far the logarithm of powf, and log10, may be off. *)
From Coq Require Import ZArith Reals Lra List.
From Flocq Require Import Core IEEE754.BinarySingleNaN.
From Verif Require Import M_Base M_F64 M_Curve M_CurveF64 S_Curve S_F64 S_Accuracy S_Return P_S15 P_F64 P_CurveErr2 P_Ideal P_Acc P_Acc4 P_Acc7 P_Acc8 P_Guard P_Return P_Return2 P_Return3 P_Return4.
Open Scope R_scope.
Notation u := ulp_half.

(** Types 3 and 6: (a x + b)^g + c. *)
Theorem C100_type3 :
  forall (pow : f64 -> f64 -> f64) (lg ex : f64 -> f64) (k : R), accurate_pow k pow -> 0 <= k <= / 100 ->
  forall g a b x, finite g -> B2R (f64_cst Ltol) <= B2R g <= 10000 -> finite a -> B2R (f64_cst Ltol) <= Rabs (B2R a) ->
    finite b -> Rabs (B2R b) <= bpow radix2 900 -> finite x ->
    let P := B2R a * B2R x + B2R b in let s := strain (B2R a * B2R x) (B2R b) in
    0 < P -> Rabs (ln P) <= 590 -> B2R g * Rabs (ln P) <= 590 -> 8 * u * s <= 1 -> 8 * u * s * B2R g <= 1 ->
  forall c, finite c -> Rabs (B2R c) <= bpow radix2 900 ->
    let r := there_error k (B2R g) P s (B2R c) in r <= / 4 -> 2 * r <= B2R g -> 0 < B2R a -> 0 <= B2R x ->
  exists y z, eval_parametric (f64_ops pow lg ex) 3 [g; a; b; c] x = Some y /\
    eval_parametric (f64_ops pow lg ex) (-3) [g; a; b; c] y = Some z /\
    near z (B2R x) (again_error k (B2R g) (B2R a) (B2R b) P r).
Proof. exact type3_returns. Qed.
Print Assumptions C100_type3.

Theorem C100_type6 :
  forall (pow : f64 -> f64 -> f64) (lg ex : f64 -> f64) (k : R), accurate_pow k pow -> 0 <= k <= / 100 ->
  forall g a b x, finite g -> B2R (f64_cst Ltol) <= B2R g <= 10000 -> finite a -> B2R (f64_cst Ltol) <= Rabs (B2R a) ->
    finite b -> Rabs (B2R b) <= bpow radix2 900 -> finite x ->
    let P := B2R a * B2R x + B2R b in let s := strain (B2R a * B2R x) (B2R b) in
    0 < P -> Rabs (ln P) <= 590 -> B2R g * Rabs (ln P) <= 590 -> 8 * u * s <= 1 -> 8 * u * s * B2R g <= 1 ->
  forall c, finite c -> Rabs (B2R c) <= bpow radix2 900 ->
    let r := there_error k (B2R g) P s (B2R c) in r <= / 4 -> 2 * r <= B2R g ->
  exists y z, eval_parametric (f64_ops pow lg ex) 6 [g; a; b; c] x = Some y /\
    eval_parametric (f64_ops pow lg ex) (-6) [g; a; b; c] y = Some z /\
    near z (B2R x) (again_error k (B2R g) (B2R a) (B2R b) P r).
Proof. exact type6_returns. Qed.
Print Assumptions C100_type6.

(** Type 5 above its break, when the line, as computed, does not end above the power there. *)
Theorem C100_type5 :
  forall (pow : f64 -> f64 -> f64) (lg ex : f64 -> f64) (k : R), accurate_pow k pow -> 0 <= k <= / 100 ->
  forall g a b x, finite g -> B2R (f64_cst Ltol) <= B2R g <= 10000 -> finite a -> B2R (f64_cst Ltol) <= Rabs (B2R a) ->
    finite b -> Rabs (B2R b) <= bpow radix2 900 -> finite x ->
    let P := B2R a * B2R x + B2R b in let s := strain (B2R a * B2R x) (B2R b) in
    0 < P -> Rabs (ln P) <= 590 -> B2R g * Rabs (ln P) <= 590 -> 8 * u * s <= 1 -> 8 * u * s * B2R g <= 1 ->
  forall e, finite e -> Rabs (B2R e) <= bpow radix2 900 ->
    let r := there_error k (B2R g) P s (B2R e) in r <= / 4 -> 2 * r <= B2R g ->
  forall c d f, 0 < B2R a -> monotone_pow pow -> positive c -> finite d -> B2R d <= B2R x -> finite f ->
    (forall v, eval_parametric (f64_ops pow lg ex) 5 [g; a; b; c; d; e; f] d = Some v -> le64 (Bplus mode_NE (Bmult mode_NE d c) f) v) ->
  exists y z, eval_parametric (f64_ops pow lg ex) 5 [g; a; b; c; d; e; f] x = Some y /\
    eval_parametric (f64_ops pow lg ex) (-5) [g; a; b; c; d; e; f] y = Some z /\
    near z (B2R x) (again_error k (B2R g) (B2R a) (B2R b) P r).
Proof. exact type5_returns. Qed.
Print Assumptions C100_type5.

(** And below, where the computed value is less than that of the line at the break. *)
Theorem C100_type5_line :
  forall (pow : f64 -> f64 -> f64) (lg ex : f64 -> f64) g a b c d e f x,
    finite c -> B2R (f64_cst Ltol) <= Rabs (B2R c) -> finite d -> finite f -> finite x ->
    B2R x < B2R d -> Rabs (B2R c * B2R x) + Rabs (B2R f) <= bpow radix2 890 ->
    lt64 (Bplus mode_NE (Bmult mode_NE x c) f) (Bplus mode_NE (Bmult mode_NE d c) f) ->
  exists y z, eval_parametric (f64_ops pow lg ex) 5 [g; a; b; c; d; e; f] x = Some y /\
    eval_parametric (f64_ops pow lg ex) (-5) [g; a; b; c; d; e; f] y = Some z /\
    near z (B2R x) (u * (7 * Rabs (B2R x) + 4 * (Rabs (B2R f) / Rabs (B2R c))) + bpow radix2 (-1050)).
Proof. exact type5_line_returns. Qed.
Print Assumptions C100_type5_line.

(** a log10 (b x^g + c) + d. *)
Theorem C100_type7 :
  forall (pow : f64 -> f64 -> f64) (lg ex : f64 -> f64) (k kl : R), accurate_pow k pow -> 0 <= k <= / 100 ->
    accurate_log kl lg -> 0 <= kl <= / 100 ->
  forall g a b c d x, finite g -> B2R (f64_cst Ltol) <= B2R g <= 10000 -> finite a -> B2R (f64_cst Ltol) <= B2R a -> B2R a <= bpow radix2 800 ->
    finite b -> B2R (f64_cst Ltol) <= B2R b -> finite c -> finite d -> Rabs (B2R d) <= bpow radix2 800 -> positive x ->
    let W := Rpower (B2R x) (B2R g) in let V := B2R b * W + B2R c in
    let E := log_there k kl (B2R a) (B2R b) (B2R c) (B2R d) W in
    let r := log_seen (B2R a) (B2R b) (B2R c) W E in let q := log_again k (B2R a) (B2R b) (B2R c) W E in
    Rabs (ln (B2R x)) <= 590 -> B2R g * Rabs (ln (B2R x)) <= 590 -> Rabs (ln (B2R b * W)) <= 590 ->
    0 < V -> Rabs (log_10 V) + E / B2R a <= 100 -> (2 * relative k + 4 * u) * strain (B2R b * W) (B2R c) <= / 4 ->
    r <= / 4 -> 2 * r <= B2R g -> q <= / 4 -> 2 * q + 4 * u <= B2R g ->
  exists y z, eval_parametric (f64_ops pow lg ex) 7 [g; a; b; c; d] x = Some y /\
    eval_parametric (f64_ops pow lg ex) (-7) [g; a; b; c; d] y = Some z /\
    near z (B2R x) (log_return k (B2R g) (B2R x) r q).
Proof. exact type7_returns. Qed.
Print Assumptions C100_type7.

(** a b^(c x + d) + e. *)
Theorem C100_type8 :
  forall (pow : f64 -> f64 -> f64) (lg ex : f64 -> f64) (k kl : R), accurate_pow k pow -> 0 <= k <= / 100 ->
    accurate_log kl lg -> 0 <= kl <= / 100 ->
  forall a b c d e x, finite a -> B2R (f64_cst Ltol) <= B2R a -> positive b -> B2R b <> 1 ->
    finite c -> B2R (f64_cst Ltol) <= Rabs (B2R c) -> finite d -> Rabs (B2R d) <= bpow radix2 800 -> finite e -> finite x ->
    let W := B2R c * B2R x + B2R d in let V := Rpower (B2R b) W in
    Rabs (B2R c * B2R x) + Rabs (B2R d) <= bpow radix2 900 -> Rabs (W * ln (B2R b)) <= 590 ->
    Rabs (ln (B2R b)) * (3 * u * (Rabs (B2R c * B2R x) + Rabs (B2R d)) + tiny) <= 1 ->
    Rabs (B2R a * V) + Rabs (B2R e) <= bpow radix2 900 -> Rabs (ln (B2R a * V)) <= 590 ->
    let r := exp_there k (B2R a) (B2R b) (B2R c) (B2R d) (B2R e) (B2R x) in r <= / 4 ->
  exists y z, eval_parametric (f64_ops pow lg ex) 8 [a; b; c; d; e] x = Some y /\
    eval_parametric (f64_ops pow lg ex) (-8) [a; b; c; d; e] y = Some z /\
    near z (B2R x) (exp_return kl (B2R b) (B2R c) (B2R d) (B2R x) r).
Proof. exact type8_returns. Qed.
Print Assumptions C100_type8.

(** (1 - (1 - x)^(1/g))^(1/g). *)
Theorem C100_type108 :
  forall (pow : f64 -> f64 -> f64) (lg ex : f64 -> f64) (k : R), accurate_pow k pow -> 0 <= k <= / 100 ->
  forall g x, finite g -> B2R (f64_cst Ltol) <= B2R g <= 10000 -> finite x ->
    let D := 1 - B2R x in let V := Rpower D (/ B2R g) in let N := 1 - V in
    let r := s_there k (B2R g) (B2R x) in let q := s_seen (B2R g) (B2R x) r in
    let t := k + u * (Rabs (ln D) + 8) / B2R g in let p := (2 * relative t + 2 * u) * strain 1 (- V) in
    let p' := (2 * relative k + 2 * u) * (8 / (3 * V)) in
    0 < D -> 0 < N -> Rabs (ln D) + 2 * q * B2R g <= 600 -> Rabs (ln D) <= 590 * B2R g ->
    Rabs (ln N) + 2 * r * B2R g <= 600 -> Rabs (ln N) <= 600 * B2R g ->
    t <= / 10 -> p <= / 4 -> 2 * p <= B2R g -> r <= / 4 -> q <= / 4 -> p' <= / 4 -> k + 2 * p' * B2R g <= 1 ->
  exists y z, eval_parametric (f64_ops pow lg ex) 108 [g] x = Some y /\ eval_parametric (f64_ops pow lg ex) (-108) [g] y = Some z /\
    near z (B2R x) (s_return k (B2R g) (B2R x) q).
Proof. exact type108_returns. Qed.
Print Assumptions C100_type108.

(** In numbers: types 3 and 6 with a powf good to one unit in the last place and everyday parameters. *)
Theorem C100_ordinary :
  forall (pow : f64 -> f64 -> f64) (lg ex : f64 -> f64), accurate_pow (2 * u) pow ->
  forall g a b c x, finite g -> / 4 <= B2R g <= 4 -> finite a -> / 4 <= B2R a <= 4 -> finite b -> 0 <= B2R b <= 1 ->
    finite c -> Rabs (B2R c) <= 1 -> finite x -> 0 <= B2R x <= 1 -> / 16 <= B2R a * B2R x + B2R b ->
  forall t, t = 3%Z \/ t = 6%Z ->
  exists y z, eval_parametric (f64_ops pow lg ex) t [g; a; b; c] x = Some y /\
    eval_parametric (f64_ops pow lg ex) (- t) [g; a; b; c] y = Some z /\ near z (B2R x) (/ IZR (2 ^ 31)).
Proof. exact ordinary_returns. Qed.
Print Assumptions C100_ordinary.

(** Types 7, 8 and 108 likewise, log10 being good to half a unit. *)
Theorem C100_ordinary_log :
  forall (pow : f64 -> f64 -> f64) (lg ex : f64 -> f64), accurate_pow (2 * u) pow -> accurate_log u lg ->
  forall g a b c d x, finite g -> / 4 <= B2R g <= 4 -> finite a -> / 4 <= B2R a <= 4 -> finite b -> / 4 <= B2R b <= 4 ->
    finite c -> 0 <= B2R c <= 1 -> finite d -> Rabs (B2R d) <= 1 -> finite x -> 0 < B2R x <= 1 ->
    / 256 <= B2R b * Rpower (B2R x) (B2R g) ->
  exists y z, eval_parametric (f64_ops pow lg ex) 7 [g; a; b; c; d] x = Some y /\
    eval_parametric (f64_ops pow lg ex) (-7) [g; a; b; c; d] y = Some z /\ near z (B2R x) (/ IZR (2 ^ 29)).
Proof. exact ordinary7. Qed.
Print Assumptions C100_ordinary_log.

Theorem C100_ordinary_exp :
  forall (pow : f64 -> f64 -> f64) (lg ex : f64 -> f64), accurate_pow (2 * u) pow -> accurate_log u lg ->
  forall a b c d e x, finite a -> / 4 <= B2R a <= 4 -> finite b -> 2 <= B2R b <= 16 -> finite c -> / 4 <= B2R c <= 4 ->
    finite d -> Rabs (B2R d) <= 2 -> finite e -> Rabs (B2R e) <= 1 -> finite x -> 0 <= B2R x <= 1 ->
  exists y z, eval_parametric (f64_ops pow lg ex) 8 [a; b; c; d; e] x = Some y /\
    eval_parametric (f64_ops pow lg ex) (-8) [a; b; c; d; e] y = Some z /\ near z (B2R x) (/ IZR (2 ^ 38)).
Proof. exact ordinary8. Qed.
Print Assumptions C100_ordinary_exp.

Theorem C100_ordinary_s :
  forall (pow : f64 -> f64 -> f64) (lg ex : f64 -> f64), accurate_pow (2 * u) pow ->
  forall g x, finite g -> / 2 <= B2R g <= 2 -> finite x -> / 16 <= B2R x <= 15 / 16 ->
  exists y z, eval_parametric (f64_ops pow lg ex) 108 [g] x = Some y /\
    eval_parametric (f64_ops pow lg ex) (-108) [g] y = Some z /\ near z (B2R x) (/ IZR (2 ^ 29)).
Proof. exact ordinary108. Qed.
Print Assumptions C100_ordinary_s.

(** The hypotheses are met: [survives t ps x e] is the conclusion with correctly rounded powf and log10 and error e. *)
Example C100_cases :
  survives 5 [two; one; one; two; half; one; one] one (/ IZR (2 ^ 31)) /\
  survives 7 [one; one; one; one; one] one (/ IZR (2 ^ 40)) /\ survives 8 [one; two; one; one; one] one (/ IZR (2 ^ 40)) /\
  survives 108 [one] half (/ IZR (2 ^ 40)).
Proof. exact (conj case5_back (conj case7_back (conj case8_back case108_back))). Qed.
Example C100_ordinary_case : forall t, t = 3%Z \/ t = 6%Z ->
  survives t [two; one; half; Bopp one] half (/ IZR (2 ^ 31)).
Proof.
  intros t T. destruct cst1 as (V1 & F1). destruct two_val as (V2 & F2). destruct half_val as (VH & FH).
  apply C100_ordinary; try assumption; try (rewrite ?V1, ?V2, ?VH; lra); [exact ideal_accurate|].
  rewrite B2R_Bopp, Rabs_Ropp, V1, Rabs_pos_eq; lra.
Qed.
Example C100_line_case : survives 5 [two; one; one; two; one; one; one] half (16 * u).
Proof.
  destruct cst1 as (V1 & F1). destruct two_val as (V2 & F2). destruct half_val as (VH & FH). pose proof (bpow_ge_0 radix2 (-1050)).
  assert (T : B2R (f64_cst Ltol) <= 2) by (pose proof tol64_small; lra).
  eapply survives_weaken.
  - apply C100_type5_line; try assumption; rewrite ?V1, ?V2, ?VH, ?Rabs_pos_eq by lra; try lra.
    + apply Rle_trans with (bpow radix2 1); [change (bpow radix2 1) with 2; lra|apply bpow_le; reflexivity || discriminate].
    + apply ltb_lt64. vm_compute. reflexivity.
  - rewrite V1, V2, VH, !Rabs_pos_eq by lra. assert (bpow radix2 (-1050) <= u); [|lra].
    replace u with (bpow radix2 (-53)) by (unfold ulp_half; cbn; lra). apply bpow_le. discriminate.
Qed.
Example C100_ordinary_cases :
  survives 7 [two; half; two; half; Bopp one] half (/ IZR (2 ^ 29)) /\ survives 8 [half; two; half; Bopp one; Bopp one] half (/ IZR (2 ^ 38)) /\
  survives 108 [two] half (/ IZR (2 ^ 29)).
Proof.
  destruct cst1 as (V1 & F1). destruct two_val as (V2 & F2). destruct half_val as (VH & FH).
  assert (VM : Rabs (B2R (Bopp one)) = 1) by (rewrite B2R_Bopp, Rabs_Ropp, V1, Rabs_pos_eq; lra).
  assert (FM : finite (Bopp one)) by (unfold finite; now rewrite is_finite_Bopp).
  repeat split.
  - apply C100_ordinary_log; try assumption; try (rewrite ?VM, ?V1, ?V2, ?VH; lra); [exact ideal_accurate|exact ideal_log_accurate|].
    rewrite V2, VH. replace (Rpower (/ 2) 2) with (Rpower (/ 2) (INR 2)) by (f_equal; cbn; lra). rewrite Rpower_pow by lra. lra.
  - apply C100_ordinary_exp; try assumption; try (rewrite ?VM, ?V1, ?V2, ?VH; lra); [exact ideal_accurate|exact ideal_log_accurate].
  - apply C100_ordinary_s; try assumption; try (rewrite ?V2, ?VH; lra); exact ideal_accurate.
Qed.
