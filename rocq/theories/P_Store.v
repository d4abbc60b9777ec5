(** Proofs: curves with stored parameters (C114). *)
From Coq Require Import ZArith Reals Lra Lia List.
From Flocq Require Import Core IEEE754.BinarySingleNaN.
From Verif Require Import M_Base M_F64 M_Curve M_CurveF64 S_Curve S_F64 S_Accuracy S_Words S_Store P_F64 P_Ideal P_CurveErr2 P_Acc2 P_Acc7 Props_S15 Props_Accuracy.
Open Scope R_scope.

Lemma exp1_low : 9 / 4 <= exp 1.
Proof.
  replace 1 with (/ 2 + / 2) by lra. rewrite exp_plus. pose proof (exp_ineq1_le (/ 2)). nra.
Qed.
Lemma hump s : s * exp (- s) <= 4 / 9.
Proof.
  pose proof (exp_ineq1_le (s - 1)) as H. pose proof exp1_low as E. pose proof (exp_pos (- s)) as P.
  assert (E1 : exp (s - 1) * exp (- s) = exp (- (1))) by (rewrite <- exp_plus; f_equal; lra).
  assert (E2 : exp (- (1)) * exp 1 = 1) by (rewrite <- exp_plus; replace (- (1) + 1) with 0 by lra; apply exp_0).
  assert (exp (- (1)) <= 4 / 9) by nra. nra.
Qed.
(** Powers of a number up to 1 hardly depend on the exponent. *)
Lemma exponents_up x p q : 0 < x <= 1 -> 0 < p <= q -> 0 <= Rpower x p - Rpower x q <= (q - p) * (4 / 9) / p.
Proof.
  intros X PQ. set (L := - ln x). assert (L0 : 0 <= L).
  { unfold L. assert (ln x <= 0); [|lra]. rewrite <- ln_1. destruct X as (X & [X1| ->]); [left; now apply ln_increasing|lra]. }
  assert (E : Rpower x p - Rpower x q = exp (- (p * L)) * (1 - exp (- ((q - p) * L)))).
  { unfold Rpower. rewrite Rmult_minus_distr_l, Rmult_1_r, <- exp_plus. unfold L. f_equal; f_equal; ring. }
  rewrite E. pose proof (exp_pos (- (p * L))) as P0. pose proof (exp_ineq1_le (- ((q - p) * L))) as I.
  assert (D : 0 <= (q - p) * L) by (apply Rmult_le_pos; lra).
  assert (I1 : exp (- ((q - p) * L)) <= 1) by (rewrite <- exp_0; destruct D as [D|D]; [left; apply exp_increasing; lra|rewrite <- D, Ropp_0; lra]).
  split; [apply Rmult_le_pos; lra|].
  apply Rle_trans with (exp (- (p * L)) * ((q - p) * L)); [apply Rmult_le_compat_l; lra|].
  pose proof (hump (p * L)) as H. replace (exp (- (p * L)) * ((q - p) * L)) with ((q - p) / p * (p * L * exp (- (p * L)))) by (field; lra).
  replace ((q - p) * (4 / 9) / p) with ((q - p) / p * (4 / 9)) by (field; lra).
  apply Rmult_le_compat_l; [|exact H]. apply Rle_mult_inv_pos; lra.
Qed.
Lemma exponents x p q m t : 0 < x <= 1 -> 0 < m -> m <= p -> m <= q -> Rabs (p - q) <= t -> Rabs (Rpower x p - Rpower x q) <= t * (4 / 9) / m.
Proof.
  intros X M MP MQ T. apply Rabs_le_inv in T.
  assert (S : forall a b, m <= a -> a <= b -> b - a <= t -> (b - a) * (4 / 9) / a <= t * (4 / 9) / m).
  { intros a b MA AB H. unfold Rdiv. apply Rmult_le_compat; try lra.
    - left. apply Rinv_0_lt_compat. lra.
    - apply Rinv_le; lra. }
  destruct (Rle_dec p q) as [L|L].
  - destruct (exponents_up x p q X ltac:(lra)) as (A & B). rewrite Rabs_pos_eq by lra. eapply Rle_trans; [exact B|]. apply S; lra.
  - destruct (exponents_up x q p X ltac:(lra)) as (A & B). rewrite Rabs_minus_sym, Rabs_pos_eq by lra. eapply Rle_trans; [exact B|]. apply S; lra.
Qed.

(** Reading back. *)
Lemma back_in e x : finite x -> Rabs (B2R x) <= 32000 ->
  exists x', stored e x x' /\ finite x' /\ Rabs (B2R x' - B2R x) <= half_step + bpow radix2 (-70) /\ (/ 4 <= B2R x -> Rabs (B2R x' - B2R x) <= half_step).
Proof.
  intros F B. apply Rabs_le_inv in B. destruct (C16_every_value_in_range_survives_up_to_rounding e x F ltac:(lra) ltac:(intros; lra)) as (x' & E & F' & H1 & H2).
  exists x'. split; [exact E|]. split; [exact F'|]. split; [exact H1|]. intros Q. apply H2. intros ->.
  destruct C15_the_one_exception as (V & _). rewrite V in Q. pose proof (bpow_gt_0 radix2 (-54)). lra.
Qed.
Lemma word_step x y : Rabs (B2R x - B2R y) < / 65535 -> (Z.abs (to_word x - to_word y) <= 1)%Z.
Proof.
  intros H. apply Rabs_lt_inv in H. unfold to_word.
  set (s := 65535 * B2R x + / 2). set (t := 65535 * B2R y + / 2). assert (ST : - (1) < s - t < 1) by (unfold s, t; lra).
  pose proof (Zfloor_lb s). pose proof (Zfloor_ub s). pose proof (Zfloor_lb t). pose proof (Zfloor_ub t).
  assert (Zfloor s - Zfloor t < 2)%Z by (apply lt_IZR; rewrite minus_IZR; lra).
  assert (Zfloor t - Zfloor s < 2)%Z by (apply lt_IZR; rewrite minus_IZR; lra). lia.
Qed.
Lemma u_val : ulp_half = / 9007199254740992. Proof. reflexivity. Qed.
Lemma tol_val : 0 < B2R (f64_cst Ltol) <= / 100.
Proof. rewrite (proj1 cst_tol). lra. Qed.

(** Powers of two near numbers. *)
Lemma ln_up c : 0 < c -> ln c <= c - 1.
Proof. intros C. pose proof (exp_ineq1_le (ln c)). rewrite exp_ln in H by exact C. lra. Qed.
Lemma slope c h : / 512 <= c <= 1 + / 32768 -> 1 - / 65536 <= h <= 5 -> 0 < Rpower c (h - 1) <= 101 / 100.
Proof.
  intros C H. split; [apply exp_pos|]. unfold Rpower.
  assert (B : (h - 1) * ln c <= / 127).
  { destruct (Rle_dec 0 (ln c)) as [L|L].
    - pose proof (ln_up c ltac:(lra)). destruct (Rle_dec 1 h); nra.
    - assert (I : - ln c <= 511).
      { rewrite <- ln_Rinv by lra. eapply Rle_trans; [apply ln_up, Rinv_0_lt_compat; lra|]. assert (/ c <= / / 512) by (apply Rinv_le; lra). lra. }
      destruct (Rle_dec 1 h); nra. }
  apply Rle_trans with (exp (/ 127)); [destruct B as [B| ->]; [left; now apply exp_increasing|lra]|].
  destruct (relative_small (/ 127)) as (_ & R); [lra|]. unfold relative in R. lra.
Qed.
Lemma bases_up P Q h : / 512 <= P -> P < Q -> Q <= 1 + / 32768 -> 1 - / 65536 <= h <= 5 -> 0 <= Rpower Q h - Rpower P h <= (Q - P) * h * (101 / 100).
Proof.
  intros PL PQ QU H. destruct (MVT_cor2 (fun c => Rpower c h) (fun c => h * Rpower c (h - 1)) P Q PQ) as (c & E & C).
  { intros c C. apply derivable_pt_lim_power. lra. }
  rewrite E. destruct (slope c h ltac:(lra) H) as (S0 & S1). split; [apply Rmult_le_pos; nra|].
  replace ((Q - P) * h * (101 / 100)) with (h * (101 / 100) * (Q - P)) by ring. apply Rmult_le_compat_r; [lra|]. apply Rmult_le_compat_l; lra.
Qed.
Lemma bases P Q h t : / 512 <= P <= 1 + / 32768 -> / 512 <= Q <= 1 + / 32768 -> 1 - / 65536 <= h <= 5 -> Rabs (P - Q) <= t ->
  Rabs (Rpower P h - Rpower Q h) <= t * h * (101 / 100).
Proof.
  intros PP QQ H T. assert (T0 : 0 <= t) by (eapply Rle_trans; [apply Rabs_pos|exact T]). apply Rabs_le_inv in T.
  assert (S : forall d, 0 <= d <= t -> d * h * (101 / 100) <= t * h * (101 / 100)) by (intros; nra).
  destruct (Rtotal_order P Q) as [L|[->|L]].
  - destruct (bases_up P Q h ltac:(lra) L ltac:(lra) H) as (A & B). rewrite Rabs_minus_sym, Rabs_pos_eq by lra. eapply Rle_trans; [exact B|apply S; lra].
  - replace (Rpower Q h - Rpower Q h) with 0 by ring. rewrite Rabs_R0. nra.
  - destruct (bases_up Q P h ltac:(lra) L ltac:(lra) H) as (A & B). rewrite Rabs_pos_eq by lra. eapply Rle_trans; [exact B|apply S; lra].
Qed.
Lemma ln_512 c : / 512 <= c <= 2 -> Rabs (ln c) <= 7.
Proof.
  intros C. pose proof ln2_upper. apply Rabs_le. split.
  - assert (L : ln (/ 512) = - 9 * ln 2).
    { rewrite ln_Rinv by lra. replace 512 with (bpow radix2 9) by reflexivity. rewrite ln_bpow. lra. }
    assert (ln (/ 512) <= ln c) by (destruct (proj1 C) as [A| <-]; [left; apply ln_increasing|]; lra). lra.
  - pose proof (ln_up c ltac:(lra)). lra.
Qed.

Lemma line_moves a b a' b' x T : - T <= a' - a <= T -> - T <= b' - b <= T -> 0 <= x <= 1 -> Rabs (a' * x + b' - (a * x + b)) <= 2 * T.
Proof.
  intros A B X. replace (a' * x + b' - (a * x + b)) with ((a' - a) * x + (b' - b)) by ring.
  assert (- T <= (a' - a) * x <= T) by (clear B; split; nra). apply Rabs_le. lra.
Qed.
Lemma line_top a b x : 0 <= a -> a + b <= 1 -> 0 <= x <= 1 -> a * x + b <= 1.
Proof. intros A AB X. assert (a * x <= a * 1) by (apply Rmult_le_compat_l; lra). lra. Qed.
Lemma moved_total T g g' : 0 <= T <= / 131071 -> 1 <= g <= 4 -> 0 <= g' <= g + T -> 2 * T * g' * (101 / 100) + / 2 * T <= / 131072 * (2 * g + 3 / 4).
Proof.
  intros TT G G'. assert (T * g' <= / 131071 * (g + / 131071)) by (apply Rmult_le_compat; lra). lra.
Qed.
Lemma ratio_half T g : 0 <= T <= / 131071 -> 1 <= g -> T * (4 / 9) / (g - T) <= / 2 * T.
Proof.
  intros TT G. apply Rmult_le_reg_r with (g - T); [lra|]. replace (T * (4 / 9) / (g - T) * (g - T)) with (T * (4 / 9)) by (field; lra).
  assert (/ 2 * T * (8 / 9) <= / 2 * T * (g - T)) by (apply Rmult_le_compat_l; lra). lra.
Qed.
Lemma mul_le x y a b : 0 <= x <= a -> 0 <= y <= b -> x * y <= a * b.
Proof. intros. apply Rmult_le_compat; lra. Qed.
Lemma strain_bound p q P : 0 <= p <= 3 / 2 -> 0 <= q <= 3 / 2 -> / 512 <= P -> 0 <= (p + q) / P <= 1536.
Proof.
  intros A B L. split; [apply Rle_mult_inv_pos; lra|]. apply Rmult_le_reg_r with P; [lra|].
  replace ((p + q) / P * P) with (p + q) by (field; lra). lra.
Qed.

Section Store.
  Context (pow : f64 -> f64 -> f64) (lg ex : f64 -> f64) (POW : accurate_pow (2 * ulp_half) pow).
  Local Notation ev := (eval_parametric (f64_ops pow lg ex)).

  Lemma ln_word x : / 65536 <= x <= 1 -> Rabs (ln x) <= 12.
  Proof.
    intros (A & B). assert (0 < x) by lra. assert (ln x <= 0) by (rewrite <- ln_1; destruct B as [B| ->]; [left; now apply ln_increasing|lra]).
    rewrite Rabs_left1 by assumption. pose proof ln2_upper.
    assert (L : ln (/ 65536) = - 16 * ln 2).
    { rewrite ln_Rinv by lra. replace 65536 with (bpow radix2 16) by reflexivity. rewrite ln_bpow. lra. }
    assert (ln (/ 65536) <= ln x) by (destruct A as [A| ->]; [left; apply ln_increasing|]; lra). lra.
  Qed.
  Lemma power_le1 x g : 0 < x <= 1 -> 0 <= g -> 0 < Rpower x g <= 1.
  Proof.
    intros X G. split; [apply exp_pos|]. unfold Rpower. rewrite <- exp_0.
    assert (ln x <= 0) by (rewrite <- ln_1; destruct X as (X & [B| ->]); [left; now apply ln_increasing|lra]).
    assert (g * ln x <= 0) by nra. destruct H0 as [H0| ->]; [left; now apply exp_increasing|lra].
  Qed.
  Lemma plain g x : finite g -> / 5 <= B2R g <= 17 -> finite x -> / 65536 <= B2R x <= 1 ->
    exists y, ev 1 [g] x = Some y /\ near y (Rpower (B2R x) (B2R g)) (/ IZR (2 ^ 50)).
  Proof.
    intros FG G FX X. pose proof (ln_word _ X) as L. assert (PX : positive x) by (split; [exact FX|lra]).
    destruct (C96_type1 pow lg ex _ POW g x FG PX) as (y & E & F & H).
    { rewrite Rabs_mult, (Rabs_pos_eq (B2R g)) by lra. pose proof (Rabs_pos (ln (B2R x))). nra. }
    exists y. split; [exact E|]. split; [exact F|]. eapply Rle_trans; [exact H|].
    destruct (relative_small (2 * ulp_half)) as (R0 & R1); [rewrite u_val; lra|].
    destruct (power_le1 (B2R x) (B2R g) ltac:(lra) ltac:(lra)) as (P0 & P1).
    apply Rle_trans with (relative (2 * ulp_half) * 1); [apply Rmult_le_compat_l; lra|].
    rewrite u_val in *. change (2 ^ 50)%Z with 1125899906842624%Z. lra.
  Qed.
  Lemma plain_back g x : finite g -> / 5 <= B2R g <= 17 -> finite x -> / 65536 <= B2R x <= 1 ->
    exists y, ev (-1) [g] x = Some y /\ near y (Rpower (B2R x) (/ B2R g)) (/ IZR (2 ^ 45)).
  Proof.
    intros FG G FX X. pose proof (ln_word _ X) as L. assert (PX : positive x) by (split; [exact FX|lra]). pose proof tol_val as T. pose proof (Rabs_pos (ln (B2R x))) as L0.
    destruct (C97_type1 pow lg ex _ POW ltac:(rewrite u_val; lra) g FG ltac:(lra) x PX ltac:(lra)) as (y & E & F & H).
    exists y. split; [exact E|]. split; [exact F|]. eapply Rle_trans; [exact H|].
    assert (I : 0 < / B2R g <= 5). { split; [apply Rinv_0_lt_compat; lra|]. replace 5 with (/ / 5) by lra. apply Rinv_le; lra. }
    set (t := 2 * ulp_half + ulp_half * Rabs (ln (B2R x)) / B2R g).
    assert (TT : 0 <= t <= 62 * ulp_half).
    { unfold t, Rdiv. rewrite u_val. split; [nra|]. assert (Rabs (ln (B2R x)) * / B2R g <= 60) by nra. lra. }
    destruct (relative_small t) as (R0 & R1); [rewrite u_val in TT; lra|].
    destruct (power_le1 (B2R x) (/ B2R g) ltac:(lra) ltac:(lra)) as (P0 & P1).
    apply Rle_trans with (relative t * 1); [apply Rmult_le_compat_l; lra|].
    rewrite u_val in *. change (2 ^ 45)%Z with 35184372088832%Z. lra.
  Qed.

  Lemma stored_gamma e g : finite g -> / 4 <= B2R g <= 16 -> exists g', stored e g g' /\
    forall x, finite x -> / 65536 <= B2R x <= 1 -> exists y y',
      ev 1 [g] x = Some y /\ ev 1 [g'] x = Some y' /\
      near y' (Rpower (B2R x) (B2R g)) (/ (262144 * B2R g) + / IZR (2 ^ 50)) /\ (Z.abs (to_word y' - to_word y) <= 1)%Z.
  Proof.
    intros FG G. destruct (back_in e g FG) as (g' & S & F' & _ & D); [rewrite Rabs_pos_eq; lra|]. specialize (D ltac:(lra)). unfold half_step in D.
    exists g'. split; [exact S|]. intros x FX X. pose proof (Rabs_le_inv _ _ D) as D'.
    destruct (plain g x FG ltac:(lra) FX X) as (y & E & F & H). destruct (plain g' x F' ltac:(lra) FX X) as (y' & E' & FY' & H').
    assert (B : Rabs (Rpower (B2R x) (B2R g') - Rpower (B2R x) (B2R g)) <= / (262144 * B2R g)).
    { eapply Rle_trans; [apply (exponents (B2R x) (B2R g') (B2R g) (B2R g - / 131072) (/ 131072)); try lra|].
      rewrite Rinv_mult. replace (/ 131072 * (4 / 9) / (B2R g - / 131072)) with (/ 262144 * (8 / 9 * / (B2R g - / 131072))) by (field; lra).
      apply Rmult_le_compat_l; [lra|]. apply Rmult_le_reg_l with (B2R g * (B2R g - / 131072)); [nra|].
      replace (B2R g * (B2R g - / 131072) * (8 / 9 * / (B2R g - / 131072))) with (8 / 9 * B2R g) by (field; lra).
      replace (B2R g * (B2R g - / 131072) * / B2R g) with (B2R g - / 131072) by (field; lra). lra. }
    assert (N : Rabs (B2R y' - Rpower (B2R x) (B2R g)) <= / (262144 * B2R g) + / IZR (2 ^ 50)).
    { replace (B2R y' - Rpower (B2R x) (B2R g)) with ((B2R y' - Rpower (B2R x) (B2R g')) + (Rpower (B2R x) (B2R g') - Rpower (B2R x) (B2R g))) by ring.
      eapply Rle_trans; [apply Rabs_triang|]. lra. }
    exists y, y'. split; [exact E|]. split; [exact E'|]. split; [split; [exact FY'|exact N]|].
    apply word_step. assert (/ (262144 * B2R g) <= / 65536) by (apply Rinv_le; lra).
    change (2 ^ 50)%Z with 1125899906842624%Z in *. apply Rabs_le_inv in N, H. apply Rabs_lt. lra.
  Qed.
  Lemma stored_gamma_back e g : finite g -> / 4 <= B2R g <= 16 -> exists g', stored e g g' /\
    forall x, finite x -> / 65536 <= B2R x <= 1 -> exists y y',
      ev (-1) [g] x = Some y /\ ev (-1) [g'] x = Some y' /\
      near y' (Rpower (B2R x) (/ B2R g)) (/ (262144 * B2R g) + / IZR (2 ^ 45)) /\ (Z.abs (to_word y' - to_word y) <= 1)%Z.
  Proof.
    intros FG G. destruct (back_in e g FG) as (g' & S & F' & _ & D); [rewrite Rabs_pos_eq; lra|]. specialize (D ltac:(lra)). unfold half_step in D.
    exists g'. split; [exact S|]. intros x FX X. pose proof (Rabs_le_inv _ _ D) as D'.
    destruct (plain_back g x FG ltac:(lra) FX X) as (y & E & F & H). destruct (plain_back g' x F' ltac:(lra) FX X) as (y' & E' & FY' & H').
    assert (B : Rabs (Rpower (B2R x) (/ B2R g') - Rpower (B2R x) (/ B2R g)) <= / (262144 * B2R g)).
    { assert (G0 : 0 < B2R g) by lra. assert (G0' : 0 < B2R g') by lra.
      pose proof (Rinv_0_lt_compat _ G0) as I0. pose proof (Rinv_0_lt_compat _ G0') as I0'.
      set (T := / 131072 * (/ B2R g * / B2R g')).
      assert (TD : Rabs (/ B2R g' - / B2R g) <= T).
      { replace (/ B2R g' - / B2R g) with ((B2R g - B2R g') * (/ B2R g * / B2R g')) by (field; lra).
        rewrite Rabs_mult, (Rabs_pos_eq (/ B2R g * / B2R g')) by nra. apply Rmult_le_compat_r; [nra|]. now rewrite Rabs_minus_sym. }
      set (M := / (Rmax (B2R g) (B2R g'))).
      assert (MM : 0 < Rmax (B2R g) (B2R g')) by (eapply Rlt_le_trans; [exact G0|apply Rmax_l]).
      eapply Rle_trans; [apply (exponents (B2R x) (/ B2R g') (/ B2R g) M T); [lra| | | |exact TD]|].
      - now apply Rinv_0_lt_compat.
      - apply Rinv_le; [exact G0'|apply Rmax_r].
      - apply Rinv_le; [exact G0|apply Rmax_l].
      - unfold T, M, Rdiv. rewrite Rinv_inv. rewrite Rinv_mult.
        assert (A : / B2R g' * Rmax (B2R g) (B2R g') <= 9 / 8).
        { unfold Rmax. destruct (Rle_dec (B2R g) (B2R g')); [rewrite Rinv_l by lra; lra|].
          apply Rmult_le_reg_l with (B2R g'); [exact G0'|]. replace (B2R g' * (/ B2R g' * B2R g)) with (B2R g) by (field; lra). lra. }
        replace (/ 131072 * (/ B2R g * / B2R g') * (4 * / 9) * Rmax (B2R g) (B2R g')) with (/ 262144 * / B2R g * (8 / 9 * (/ B2R g' * Rmax (B2R g) (B2R g')))) by (field; lra).
        rewrite <- (Rmult_1_r (/ 262144 * / B2R g)) at 2. apply Rmult_le_compat_l; [nra|]. lra. }
    assert (N : Rabs (B2R y' - Rpower (B2R x) (/ B2R g)) <= / (262144 * B2R g) + / IZR (2 ^ 45)).
    { replace (B2R y' - Rpower (B2R x) (/ B2R g)) with ((B2R y' - Rpower (B2R x) (/ B2R g')) + (Rpower (B2R x) (/ B2R g') - Rpower (B2R x) (/ B2R g))) by ring.
      eapply Rle_trans; [apply Rabs_triang|]. lra. }
    exists y, y'. split; [exact E|]. split; [exact E'|]. split; [split; [exact FY'|exact N]|].
    apply word_step. assert (/ (262144 * B2R g) <= / 65536) by (apply Rinv_le; lra).
    change (2 ^ 45)%Z with 35184372088832%Z in *. apply Rabs_le_inv in N, H. apply Rabs_lt. lra.
  Qed.
  Lemma stored_curve e g a b c : finite g -> 1 <= B2R g <= 4 -> finite a -> / 4 <= B2R a <= 1 -> finite b -> 0 <= B2R b -> B2R a + B2R b <= 1 ->
    finite c -> Rabs (B2R c) <= 1 -> exists g' a' b' c', stored e g g' /\ stored e a a' /\ stored e b b' /\ stored e c c' /\
    forall x, finite x -> 0 <= B2R x <= 1 -> / 256 <= B2R a * B2R x + B2R b ->
    let V := Rpower (B2R a * B2R x + B2R b) (B2R g) in
    (exists y, ev 2 [g'; a'; b'] x = Some y /\ near y V (half_step * (2 * B2R g + 1))) /\
    (forall t, t = 3%Z \/ t = 6%Z -> exists y, ev t [g'; a'; b'; c'] x = Some y /\ near y (V + B2R c) (half_step * (2 * B2R g + 2))).
  Proof.
    intros FG G FA A FB B AB FC C. pose proof (Rabs_le_inv _ _ C) as C'.
    destruct (back_in e g FG) as (g' & SG & FG' & DG & _); [apply Rabs_le; lra|]. destruct (back_in e a FA) as (a' & SA & FA' & DA & _); [apply Rabs_le; lra|].
    destruct (back_in e b FB) as (b' & SB & FB' & DB & _); [apply Rabs_le; lra|]. destruct (back_in e c FC) as (c' & SC & FC' & DC & _); [apply Rabs_le; lra|].
    exists g', a', b', c'. do 4 (split; [assumption|]). intros x FX X PL V.
    set (T := half_step + bpow radix2 (-70)) in *.
    assert (TV : / 131072 <= T <= / 131071).
    { unfold T, half_step. pose proof (bpow_ge_0 radix2 (-70)). assert (bpow radix2 (-70) <= bpow radix2 (-40)) by (apply bpow_le; lia).
      change (bpow radix2 (-40)) with (/ IZR (2 ^ 40)) in H0. change (2 ^ 40)%Z with 1099511627776%Z in H0. lra. }
    unfold half_step. clearbody T. apply Rabs_le_inv in DG, DA, DB. pose proof (Rabs_le_inv _ _ DC) as DC'.
    set (P := B2R a * B2R x + B2R b) in *. set (P' := B2R a' * B2R x + B2R b').
    assert (DP : Rabs (P' - P) <= 2 * T) by (apply line_moves; lra).
    pose proof (Rabs_le_inv _ _ DP) as DP'. assert (PU : P <= 1) by (apply line_top; lra).
    assert (PB : / 512 <= P' <= 1 + / 32768) by lra.
    set (V' := Rpower P' (B2R g')).
    pose proof (bases P' P (B2R g') (2 * T) PB ltac:(lra) ltac:(lra) DP) as E1.
    pose proof (exponents P (B2R g') (B2R g) (B2R g - T) T ltac:(lra) ltac:(lra) ltac:(lra) ltac:(lra) ltac:(apply Rabs_le; lra)) as E2.
    assert (E3 : T * (4 / 9) / (B2R g - T) <= / 2 * T).
    { apply ratio_half; lra. }
    assert (EV : Rabs (V' - V) <= 2 * T * B2R g' * (101 / 100) + / 2 * T).
    { unfold V', V. replace (Rpower P' (B2R g') - Rpower P (B2R g)) with ((Rpower P' (B2R g') - Rpower P (B2R g')) + (Rpower P (B2R g') - Rpower P (B2R g))) by ring.
      eapply Rle_trans; [apply Rabs_triang|]. lra. }
    destruct (power_le1 P (B2R g) ltac:(lra) ltac:(lra)) as (V0 & V1). fold V in V0, V1.
    assert (EG : 2 * T * B2R g' * (101 / 100) + / 2 * T <= / 131072 * (2 * B2R g + 3 / 4)) by (apply moved_total; lra).
    assert (VU : 0 < V' <= 2) by (split; [apply exp_pos|apply Rabs_le_inv in EV; lra]).
    pose proof (ln_512 P' ltac:(lra)) as LP. pose proof (Rabs_pos (ln P')) as LP0.
    assert (LG : Rabs (B2R g' * ln P') <= 600) by (rewrite Rabs_mult, (Rabs_pos_eq (B2R g')) by lra; pose proof (mul_le (B2R g') (Rabs (ln P')) 5 7 ltac:(lra) ltac:(lra)); lra).
    set (s := strain (B2R a' * B2R x) (B2R b')).
    assert (SB0 : 0 <= s <= 1536).
    { unfold s, strain. fold P'. rewrite (Rabs_pos_eq P') by lra. pose proof (Rabs_pos (B2R a' * B2R x)). pose proof (Rabs_pos (B2R b')).
      apply strain_bound; [|split; [assumption|apply Rabs_le; lra]|lra]. split; [assumption|].
      rewrite Rabs_mult, (Rabs_pos_eq (B2R a')), (Rabs_pos_eq (B2R x)) by lra. pose proof (mul_le (B2R a') (B2R x) (5 / 4) 1 ltac:(lra) ltac:(lra)). lra. }
    assert (S1 : 8 * ulp_half * s <= 1) by (rewrite u_val; lra).
    assert (S2 : 8 * ulp_half * s * Rabs (B2R g') <= 61440 * ulp_half).
    { rewrite (Rabs_pos_eq (B2R g')) by lra. rewrite u_val. pose proof (mul_le s (B2R g') 1536 5 ltac:(lra) ltac:(lra)). lra. }
    assert (S2' : 0 <= 8 * ulp_half * s * Rabs (B2R g')) by (rewrite (Rabs_pos_eq (B2R g')) by lra; apply Rmult_le_pos; [rewrite u_val|]; lra).
    pose proof tol_val as TL.
    set (t := 2 * ulp_half + 8 * ulp_half * s * Rabs (B2R g')).
    destruct (relative_small t) as (R0 & R1). { unfold t. rewrite u_val in *. split; lra. }
    assert (RB : relative t <= / 100000000000) by (unfold t in *; rewrite u_val in *; lra).
    assert (S3 : 8 * ulp_half * s * Rabs (B2R g') <= 1) by (rewrite u_val in *; lra).
    assert (PP : 0 < P') by lra. assert (LP6 : Rabs (ln P') <= 600) by lra. assert (TA : B2R (f64_cst Ltol) <= B2R a') by lra.
    assert (K : 0 <= 2 * ulp_half <= / 100) by (rewrite u_val; lra).
    split.
    - destruct (C96_type2 pow lg ex _ POW g' a' b' FG' FA' FB' x FX PP LP6 LG S1 S3 TA) as (y & E & F & H). exists y. split; [exact E|]. split; [exact F|].
      fold P' s V' t in H. assert (relative t * V' <= / 100000000000 * 2) by (apply Rmult_le_compat; lra).
      replace (B2R y - V) with ((B2R y - V') + (V' - V)) by ring. eapply Rle_trans; [apply Rabs_triang|]. lra.
    - assert (CB : Rabs (B2R c') <= 2) by (apply Rabs_le; lra).
      assert (CB9 : Rabs (B2R c') <= bpow radix2 900) by (eapply Rle_trans; [exact CB|]; change 2 with (bpow radix2 1); apply bpow_le; lia).
      assert (W : forall y : f64, Rabs (B2R y - (V' + B2R c')) <= (2 * relative t + ulp_half) * V' + ulp_half * Rabs (V' + B2R c') ->
        Rabs (B2R y - (V + B2R c)) <= / 131072 * (2 * B2R g + 2)).
      { intros y H. assert (Rabs (V' + B2R c') <= 4) by (apply Rabs_le; apply Rabs_le_inv in CB; lra).
        assert ((2 * relative t + ulp_half) * V' <= (2 * / 100000000000 + ulp_half) * 2) by (apply Rmult_le_compat; rewrite ?u_val; lra).
        assert (ulp_half * Rabs (V' + B2R c') <= ulp_half * 4) by (apply Rmult_le_compat_l; [rewrite u_val|]; lra).
        replace (B2R y - (V + B2R c)) with ((B2R y - (V' + B2R c')) + ((V' - V) + (B2R c' - B2R c))) by ring.
        eapply Rle_trans; [apply Rabs_triang|]. eapply Rle_trans; [apply Rplus_le_compat_l, Rabs_triang|]. rewrite u_val in *. lra. }
      intros n [-> | ->].
      + destruct (C96_type3 pow lg ex _ POW g' a' b' FG' FA' FB' x FX PP LP6 LG S1 S3 K c' TA FC' CB9 (proj1 X)) as (y & E & F & H).
        exists y. split; [exact E|]. split; [exact F|]. exact (W y H).
      + destruct (C96_type6 pow lg ex _ POW g' a' b' FG' FA' FB' x FX PP LP6 LG S1 S3 K c' FC' CB9) as (y & E & F & H).
        exists y. split; [exact E|]. split; [exact F|]. exact (W y H).
  Qed.
End Store.
