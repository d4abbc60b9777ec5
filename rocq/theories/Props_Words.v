(** C113: every 16-bit word survives a parametric curve and its reverse.  A word n stands for the number nearest to n / 65535, and a
    number for its nearest word; [2 * ulp_half] is one unit in the last place.  [pow], [lg], [ex]: powf, log10 and exp. *)
From Coq Require Import ZArith Reals Lra Lia.
From Flocq Require Import Core IEEE754.BinarySingleNaN.
From Verif Require Import M_Base M_F64 M_Curve M_CurveF64 S_Curve S_F64 S_Accuracy S_Words S_Srgb P_F64 P_CurveErr2 P_Ideal P_Words.
Open Scope R_scope.

(** A plain gamma curve, in either order. *)
Theorem C113_type1 :
  forall (pow : f64 -> f64 -> f64) (lg ex : f64 -> f64), accurate_pow (2 * ulp_half) pow ->
  forall g n x, finite g -> / 4 <= B2R g <= 4 -> (1 <= n <= 65535)%Z -> from_word n x ->
  forall t, t = 1%Z \/ t = (-1)%Z ->
  exists y z, eval_parametric (f64_ops pow lg ex) t [g] x = Some y /\ eval_parametric (f64_ops pow lg ex) (- t) [g] y = Some z /\ to_word z = n.
Proof. exact words1. Qed.
Print Assumptions C113_type1.

Theorem C113_type2 :
  forall (pow : f64 -> f64 -> f64) (lg ex : f64 -> f64), accurate_pow (2 * ulp_half) pow ->
  forall g a b n x, finite g -> / 4 <= B2R g <= 4 -> finite a -> / 4 <= B2R a <= 4 -> finite b -> 0 <= B2R b <= 1 ->
    (1 <= n <= 65535)%Z -> from_word n x ->
  exists y z, eval_parametric (f64_ops pow lg ex) 2 [g; a; b] x = Some y /\ eval_parametric (f64_ops pow lg ex) (-2) [g; a; b] y = Some z /\ to_word z = n.
Proof. exact words2. Qed.
Print Assumptions C113_type2.

(** The offset c costs digits when the power is small, hence the lower bound on a x + b. *)
Theorem C113_types_3_6 :
  forall (pow : f64 -> f64 -> f64) (lg ex : f64 -> f64), accurate_pow (2 * ulp_half) pow ->
  forall g a b c n x, finite g -> / 4 <= B2R g <= 4 -> finite a -> / 4 <= B2R a <= 4 -> finite b -> 0 <= B2R b <= 1 ->
    finite c -> Rabs (B2R c) <= 1 -> (0 <= n <= 65535)%Z -> from_word n x -> / 16 <= B2R a * B2R x + B2R b ->
  forall t, t = 3%Z \/ t = 6%Z ->
  exists y z, eval_parametric (f64_ops pow lg ex) t [g; a; b; c] x = Some y /\ eval_parametric (f64_ops pow lg ex) (- t) [g; a; b; c] y = Some z /\ to_word z = n.
Proof. exact words36. Qed.
Print Assumptions C113_types_3_6.

(** The sRGB curve: all words. *)
Theorem C113_srgb :
  forall (pow : f64 -> f64 -> f64) (lg ex : f64 -> f64), accurate_pow (2 * ulp_half) pow -> monotone_pow pow ->
  forall g a b c d n x, srgb_params (/ 10000000000) g a b c d -> (0 <= n <= 65535)%Z -> from_word n x ->
  exists y z, eval_parametric (f64_ops pow lg ex) 4 [g; a; b; c; d] x = Some y /\ eval_parametric (f64_ops pow lg ex) (-4) [g; a; b; c; d] y = Some z /\ to_word z = n.
Proof. exact words_srgb. Qed.
Print Assumptions C113_srgb.

Theorem C113_type7 :
  forall (pow : f64 -> f64 -> f64) (lg ex : f64 -> f64), accurate_pow (2 * ulp_half) pow -> accurate_log ulp_half lg ->
  forall g a b c d n x, finite g -> / 4 <= B2R g <= 4 -> finite a -> / 4 <= B2R a <= 4 -> finite b -> / 4 <= B2R b <= 4 ->
    finite c -> 0 <= B2R c <= 1 -> finite d -> Rabs (B2R d) <= 1 -> (1 <= n <= 65535)%Z -> from_word n x -> / 256 <= B2R b * Rpower (B2R x) (B2R g) ->
  exists y z, eval_parametric (f64_ops pow lg ex) 7 [g; a; b; c; d] x = Some y /\ eval_parametric (f64_ops pow lg ex) (-7) [g; a; b; c; d] y = Some z /\ to_word z = n.
Proof. exact words7. Qed.
Print Assumptions C113_type7.

Theorem C113_type8 :
  forall (pow : f64 -> f64 -> f64) (lg ex : f64 -> f64), accurate_pow (2 * ulp_half) pow -> accurate_log ulp_half lg ->
  forall a b c d e n x, finite a -> / 4 <= B2R a <= 4 -> finite b -> 2 <= B2R b <= 16 -> finite c -> / 4 <= B2R c <= 4 ->
    finite d -> Rabs (B2R d) <= 2 -> finite e -> Rabs (B2R e) <= 1 -> (0 <= n <= 65535)%Z -> from_word n x ->
  exists y z, eval_parametric (f64_ops pow lg ex) 8 [a; b; c; d; e] x = Some y /\ eval_parametric (f64_ops pow lg ex) (-8) [a; b; c; d; e] y = Some z /\ to_word z = n.
Proof. exact words8. Qed.
Print Assumptions C113_type8.

(** Between 1/16 and 15/16. *)
Theorem C113_type108 :
  forall (pow : f64 -> f64 -> f64) (lg ex : f64 -> f64), accurate_pow (2 * ulp_half) pow ->
  forall g n x, finite g -> / 2 <= B2R g <= 2 -> (4096 <= n <= 61439)%Z -> from_word n x ->
  exists y z, eval_parametric (f64_ops pow lg ex) 108 [g] x = Some y /\ eval_parametric (f64_ops pow lg ex) (-108) [g] y = Some z /\ to_word z = n.
Proof. exact words108. Qed.
Print Assumptions C113_type108.

(** Every word has its number; 21845, a third, through a curve of gamma 2 and an S-shaped one. *)
Example C113_numbers : forall n, (0 <= n <= 65535)%Z -> exists x, from_word n x.
Proof. exact word_number. Qed.
Example C113_a_third : forall lg ex, exists x y z y' z', from_word 21845 x /\
  eval_parametric (f64_ops ideal_pow lg ex) 1 [f64_cst L2] x = Some y /\ eval_parametric (f64_ops ideal_pow lg ex) (-1) [f64_cst L2] y = Some z /\ to_word z = 21845%Z /\
  eval_parametric (f64_ops ideal_pow lg ex) 108 [f64_cst L2] x = Some y' /\ eval_parametric (f64_ops ideal_pow lg ex) (-108) [f64_cst L2] y' = Some z' /\ to_word z' = 21845%Z.
Proof.
  intros lg ex. destruct (cst_val L2 2 0 eq_refl ltac:(lia) ltac:(lia)) as (E2 & _).
  assert (H2 : B2R (f64_cst L2) = 2) by (rewrite E2; cbn; lra).
  destruct (C113_numbers 21845 ltac:(lia)) as (x & W). exists x.
  destruct (C113_type1 ideal_pow lg ex ideal_accurate (f64_cst L2) 21845 x eq_refl ltac:(lra) ltac:(lia) W 1%Z (or_introl eq_refl)) as (y & z & A & B & C).
  destruct (C113_type108 ideal_pow lg ex ideal_accurate (f64_cst L2) 21845 x eq_refl ltac:(lra) ltac:(lia) W) as (y' & z' & A' & B' & C').
  exists y, z, y', z'. tauto.
Qed.
