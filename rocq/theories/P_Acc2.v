(** Accuracy of the forward curves (C96). *)
From Coq Require Import ZArith Reals Lia Lra Psatz.
From Flocq Require Import Core Relative IEEE754.BinarySingleNaN.
From Verif Require Import M_Base M_F64 M_Curve M_CurveF64 S_F64 S_Curve S_Accuracy P_S15 P_F64 P_Curve3 P_CurveErr P_Ideal P_CurveErr2 P_CurveErr3 P_CurveErr4 P_Acc.
Open Scope R_scope.

Lemma relative_pos t : 0 <= t -> 0 <= relative t.
Proof. intros H. unfold relative. pose proof (exp_ineq1_le t). lra. Qed.
Lemma relative_mono s t : s <= t -> relative s <= relative t.
Proof. intros [H | ->]; [|lra]. unfold relative. apply exp_increasing in H. lra. Qed.
Lemma le_top : bpow radix2 900 * 16 <= huge.
Proof. change 16 with (bpow radix2 4). rewrite <- bpow_plus. apply bpow_le. lia. Qed.

Lemma max_zero q : f64_max q zero = q \/ f64_max q zero = zero.
Proof. unfold f64_max, zero; destruct q. all: try destruct (f64_ltb _ _). all: try now left. all: now right. Qed.

Section Forward.
Context (pow : f64 -> f64 -> f64) (lg ex : f64 -> f64) (k : R) (AP : accurate_pow k pow).
Notation O := (f64_ops pow lg ex).
Notation raise a r b := (Bplus mode_NE (Bmult mode_NE a r) b).

Lemma power_log x g P t : positive x -> finite g -> Rabs (ln (B2R x) - ln P) <= t -> Rabs (B2R g * ln P) <= 600 -> Rabs (B2R g) * t <= 50 ->
  positive (pow x g) /\ Rabs (ln (B2R (pow x g)) - B2R g * ln P) <= k + Rabs (B2R g) * t.
Proof.
  intros X G E L T. assert (D : Rabs (B2R g * ln (B2R x) - B2R g * ln P) <= Rabs (B2R g) * t).
  { rewrite <- Rmult_minus_distr_l, Rabs_mult. apply Rmult_le_compat_l; [apply Rabs_pos|exact E]. }
  destruct (AP x g X G) as (Y & YE).
  { replace (B2R g * ln (B2R x)) with ((B2R g * ln (B2R x) - B2R g * ln P) + B2R g * ln P) by ring. eapply Rle_trans; [apply Rabs_triang|]. lra. }
  split; [exact Y|]. replace (ln (B2R (pow x g)) - B2R g * ln P) with ((ln (B2R (pow x g)) - B2R g * ln (B2R x)) + (B2R g * ln (B2R x) - B2R g * ln P)) by ring.
  eapply Rle_trans; [apply Rabs_triang|]. lra.
Qed.
Lemma rel_near y L t : positive y -> Rabs (ln (B2R y) - L) <= t -> near y (exp L) (relative t * exp L).
Proof.
  intros (F & Y) H. split; [exact F|]. apply rel_of_ln; [apply exp_pos|exact Y|]. now rewrite ln_exp.
Qed.
Lemma type1_near g x : finite g -> positive x -> Rabs (B2R g * ln (B2R x)) <= 700 ->
  exists y, eval_parametric O 1 [g] x = Some y /\ near y (Rpower (B2R x) (B2R g)) (relative k * Rpower (B2R x) (B2R g)).
Proof.
  intros G X L. destruct (AP x g X G L) as (Y & E). exists (pow x g). split.
  - ev. now rewrite pos_not_ltb.
  - now apply rel_near.
Qed.

(** Powers of a x + b. *)
Lemma affine_power g a b r : finite g -> finite a -> finite b -> finite r ->
  let P := B2R a * B2R r + B2R b in let s := strain (B2R a * B2R r) (B2R b) in
  0 < P -> Rabs (ln P) <= 600 -> Rabs (B2R g * ln P) <= 600 -> 8 * u * s <= 1 -> 8 * u * s * Rabs (B2R g) <= 1 ->
  positive (raise a r b) /\ positive (pow (raise a r b) g) /\
  near (pow (raise a r b) g) (Rpower P (B2R g)) (relative (k + 8 * u * s * Rabs (B2R g)) * Rpower P (B2R g)).
Proof.
  intros G A B R P s P0 LP GP S SG. destruct (line_rel a r b A R B P0 LP S) as (X & E). fold P s in E.
  destruct (power_log (raise a r b) g P (8 * u * s) X G E GP ltac:(lra)) as (Y & YE).
  split; [exact X|]. split; [exact Y|]. apply rel_near; [exact Y|]. lra.
Qed.
Lemma power_size P g : Rabs (g * ln P) <= 600 -> bpow radix2 (-900) <= Rpower P g <= bpow radix2 900.
Proof.
  intros H. apply huge_600; [apply exp_pos|]. unfold Rpower. now rewrite ln_exp.
Qed.
(** A power plus an offset. *)
Lemma offset_near p c V t : near p V (t * V) -> finite c -> 0 < V -> bpow radix2 (-900) <= V <= bpow radix2 900 -> 0 <= t <= 3 -> Rabs (B2R c) <= bpow radix2 900 ->
  near (Bplus mode_NE p c) (V + B2R c) ((2 * t + u) * V + u * Rabs (V + B2R c)).
Proof.
  intros N C V0 (VL & VU) T C9. pose proof u_pos as U. pose proof eta_pos as E. pose proof le_top as LT.
  assert (EV : 8 * eta <= u * V) by (apply eta_8; eapply Rle_trans; [|exact VL]; apply bpow_le; lia).
  assert (tV : 0 <= t * V <= 3 * V) by (split; [apply Rmult_le_pos; lra|apply Rmult_le_compat_r; lra]).
  pose proof (Rabs_triang V (B2R c)) as TR. rewrite (Rabs_pos_eq V) in TR by lra.
  eapply near_weaken; [apply (near_plus _ _ _ _ _ _ N (near_self c C)); lra|].
  assert (u * (t * V) <= / 1000 * (t * V)) by (apply Rmult_le_compat_r; lra). lra.
Qed.

Context (g a b : f64) (G : finite g) (A : finite a) (B : finite b) (x : f64) (X : finite x).
Let P := B2R a * B2R x + B2R b.
Let s := strain (B2R a * B2R x) (B2R b).
Context (P0 : 0 < P) (LP : Rabs (ln P) <= 600) (GP : Rabs (B2R g * ln P) <= 600) (S : 8 * u * s <= 1) (SG : 8 * u * s * Rabs (B2R g) <= 1).
Let V := Rpower P (B2R g).
Let t := k + 8 * u * s * Rabs (B2R g).

Lemma disc_below : B2R (f64_cst Ltol) <= B2R a -> f64_ltb (Babs a) (f64_cst Ltol) = false /\ f64_geb x (Bdiv mode_NE (Bopp b) a) = true.
Proof.
  intros TA. pose proof tol64_small as TS. assert (PA : positive a) by (split; [exact A|lra]). split; [now apply tol_not_ltb|].
  apply geb_iff. destruct (ov_div (Bopp b) a) as (OD & ND); [now rewrite is_finite_Bopp|exact A|lra|].
  apply le64_ov. split; [exact ND|]. split; [now apply fin_not_nan|]. rewrite OD, B2R_Bopp, (ov_fin x) by exact X.
  rewrite <- (cap_fin x). apply cap_mono, rne_le; [apply fin_fmt|]. left.
  apply Rmult_lt_reg_r with (B2R a); [apply PA|]. replace (- B2R b / B2R a * B2R a) with (- B2R b) by (field; lra). unfold P in P0. lra.
Qed.
Lemma type2_near : B2R (f64_cst Ltol) <= B2R a -> exists y, eval_parametric O 2 [g; a; b] x = Some y /\ near y V (relative t * V).
Proof.
  intros TA. destruct (disc_below TA) as (D1 & D2). destruct (affine_power g a b x G A B X P0 LP GP S SG) as (E & _ & N).
  exists (pow (raise a x b) g). split; [|exact N]. ev. rewrite D1, D2, pos_ltb by exact E. reflexivity.
Qed.
Context (KS : 0 <= k <= / 100).
Lemma t_pos : 0 <= t <= 1 + / 100.
Proof.
  assert (0 <= 8 * u * s * Rabs (B2R g)); [|unfold t; lra]. pose proof u_pos. apply Rmult_le_pos; [|apply Rabs_pos].
  assert (1 <= s) by (apply strain_ge_1; fold P; lra). apply Rmult_le_pos; lra.
Qed.
Lemma rt_small : 0 <= relative t <= 3.
Proof.
  pose proof t_pos as T. split; [now apply relative_pos|]. unfold relative. assert (exp t <= 4); [|lra].
  apply Rle_trans with (exp (INR 4 * (/ 4 + / 400))). 
  - destruct (proj2 T) as [H|H]; [left; apply exp_increasing; cbn [INR]; lra|right; f_equal; cbn [INR]; lra].
  - rewrite exp_pow. apply Rle_trans with ((1414 / 1000) ^ 4); [|lra]. apply pow_incr. split; [left; apply exp_pos|].
    eapply Rle_trans; [apply exp_upper; lra|]. apply Rle_trans with (/ (1000 / 1414)); [apply Rinv_le_contravar; lra|]. lra.
Qed.
Lemma upper_offset c : finite c -> Rabs (B2R c) <= bpow radix2 900 ->
  positive (raise a x b) /\ near (Bplus mode_NE (pow (raise a x b) g) c) (V + B2R c) ((2 * relative t + u) * V + u * Rabs (V + B2R c)).
Proof.
  intros C C9. destruct (affine_power g a b x G A B X P0 LP GP S SG) as (E & _ & N). split; [exact E|].
  apply offset_near; [exact N|exact C|apply exp_pos|now apply power_size|apply rt_small|exact C9].
Qed.
Lemma type3_near c : B2R (f64_cst Ltol) <= B2R a -> finite c -> Rabs (B2R c) <= bpow radix2 900 -> 0 <= B2R x ->
  exists y, eval_parametric O 3 [g; a; b; c] x = Some y /\ near y (V + B2R c) ((2 * relative t + u) * V + u * Rabs (V + B2R c)).
Proof.
  intros TA C C9 X0. destruct (disc_below TA) as (D1 & D2). destruct (upper_offset c C C9) as (E & N).
  eexists. split; [|exact N]. ev. rewrite D1. replace (f64_geb x (f64_max (Bdiv mode_NE (Bopp b) a) zero)) with true.
  - rewrite pos_ltb by exact E. reflexivity.
  - symmetry. assert (Z : f64_geb x zero = true) by (apply geb_iff, le64_fin; [reflexivity|exact X|exact X0]).
    set (q := Bdiv mode_NE (Bopp b) a) in *. clearbody q. assert (M : f64_max q zero = q \/ f64_max q zero = zero) by apply max_zero.
    now destruct M as [-> | ->].
Qed.
Lemma type4_upper_near c d : finite d -> B2R d <= B2R x ->
  exists y, eval_parametric O 4 [g; a; b; c; d] x = Some y /\ near y V (relative t * V).
Proof.
  intros D DX. destruct (affine_power g a b x G A B X P0 LP GP S SG) as (E & _ & N).
  exists (pow (raise a x b) g). split; [|exact N]. ev. rewrite (proj2 (geb_iff x d)) by (now apply le64_fin). rewrite pos_ltb by exact E. reflexivity.
Qed.
Lemma type5_upper_near c d e f : finite d -> B2R d <= B2R x -> finite e -> Rabs (B2R e) <= bpow radix2 900 ->
  exists y, eval_parametric O 5 [g; a; b; c; d; e; f] x = Some y /\ near y (V + B2R e) ((2 * relative t + u) * V + u * Rabs (V + B2R e)).
Proof.
  intros D DX C C9. destruct (upper_offset e C C9) as (E & N). eexists. split; [|exact N].
  ev. rewrite (proj2 (geb_iff x d)) by (now apply le64_fin). rewrite pos_ltb by exact E. reflexivity.
Qed.
Lemma type6_near c : finite c -> Rabs (B2R c) <= bpow radix2 900 ->
  exists y, eval_parametric O 6 [g; a; b; c] x = Some y /\ near y (V + B2R c) ((2 * relative t + u) * V + u * Rabs (V + B2R c)).
Proof.
  intros C C9. destruct (upper_offset c C C9) as (E & N). eexists. split; [|exact N]. ev. rewrite pos_not_ltb by exact E. reflexivity.
Qed.
End Forward.

Section Lower.
Context (pow : f64 -> f64 -> f64) (lg ex : f64 -> f64).
Notation O := (f64_ops pow lg ex).
Lemma geb_below x d : finite x -> finite d -> B2R x < B2R d -> f64_geb x d = false.
Proof. intros X D H. apply Bool.not_true_iff_false. rewrite geb_iff, le64_fin by assumption. lra. Qed.
Lemma type4_lower_near g a b c d x : finite c -> finite d -> finite x -> B2R x < B2R d -> Rabs (B2R c * B2R x) <= bpow radix2 900 ->
  exists y, eval_parametric O 4 [g; a; b; c; d] x = Some y /\ near y (B2R c * B2R x) (u * Rabs (B2R c * B2R x) + tiny).
Proof.
  intros C D X L H. pose proof le_top. pose proof eta_pos. exists (Bmult mode_NE x c). split.
  - ev. now rewrite geb_below.
  - rewrite Rmult_comm in *. eapply near_weaken.
    + apply (near_mult x c (B2R c) 0 X (near_self c C)). pose proof (bpow_gt_0 radix2 900). lra.
    + rewrite tiny_eta. lra.
Qed.
Lemma type5_lower_near g a b c d e f x : finite c -> finite d -> finite f -> finite x -> B2R x < B2R d ->
  let Q := Rabs (B2R c * B2R x) + Rabs (B2R f) in Q <= bpow radix2 900 ->
  exists y, eval_parametric O 5 [g; a; b; c; d; e; f] x = Some y /\ near y (B2R c * B2R x + B2R f) (3 * u * Q + tiny).
Proof.
  intros C D F X L Q H. unfold Q in *. clear Q. pose proof eta_pos. exists (Bplus mode_NE (Bmult mode_NE x c) f). split.
  - ev. now rewrite geb_below.
  - rewrite (Rmult_comm (B2R c)) in *. eapply near_weaken; [apply line_near; try assumption|].
    + eapply Rle_trans; [exact H|]. apply bpow_le. lia.
    + rewrite tiny_eta. lra.
Qed.
End Lower.
