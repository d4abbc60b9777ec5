(** Accuracy of the curves at binary64 (C96). *)
From Coq Require Import ZArith Reals Lia Lra Psatz.
From Flocq Require Import Core Relative IEEE754.BinarySingleNaN.
From Verif Require Import M_Base M_F64 M_Curve M_CurveF64 S_F64 S_Curve S_Accuracy P_S15 P_F64 P_Curve3 P_CurveErr P_Ideal P_CurveErr2 P_CurveErr3 P_CurveErr4.
Open Scope R_scope.

(** One operation on nearby numbers. *)
Lemma near_op (z : f64) v w t : ov z = cap (rne w) /\ is_nan z = false -> Rabs (w - v) <= t -> Rabs v + t <= huge ->
  near z v (t + u * (Rabs v + t) + eta).
Proof.
  intros O W H. assert (Rabs w <= Rabs v + t).
  { replace w with ((w - v) + v) by ring. eapply Rle_trans; [apply Rabs_triang|]. lra. }
  destruct (op_fin z w O) as (F & E); [lra|]. split; [exact F|].
  replace (B2R z - v) with ((B2R z - w) + (w - v)) by ring. eapply Rle_trans; [apply Rabs_triang|]. pose proof u_pos.
  assert (u * Rabs w <= u * (Rabs v + t)) by (apply Rmult_le_compat_l; lra). lra.
Qed.
Lemma near_weaken x v t t' : near x v t -> t <= t' -> near x v t'.
Proof. intros (F & H) L. split; [exact F|lra]. Qed.
Lemma near_self x : finite x -> near x (B2R x) 0.
Proof. intros F. split; [exact F|]. rewrite Rminus_diag_eq by reflexivity. rewrite Rabs_R0. lra. Qed.
Lemma near_plus x y v w s t : near x v s -> near y w t -> Rabs (v + w) + (s + t) <= huge ->
  near (Bplus mode_NE x y) (v + w) (s + t + u * (Rabs (v + w) + (s + t)) + eta).
Proof.
  intros (F & X) (F' & Y) H. apply near_op with (w := B2R x + B2R y); [now apply ov_plus| |exact H].
  replace (B2R x + B2R y - (v + w)) with ((B2R x - v) + (B2R y - w)) by ring. eapply Rle_trans; [apply Rabs_triang|]. lra.
Qed.
Lemma near_minus x y v w s t : near x v s -> near y w t -> Rabs (v - w) + (s + t) <= huge ->
  near (Bminus mode_NE x y) (v - w) (s + t + u * (Rabs (v - w) + (s + t)) + eta).
Proof.
  intros (F & X) (F' & Y) H. apply near_op with (w := B2R x - B2R y); [now apply ov_minus| |exact H].
  replace (B2R x - B2R y - (v - w)) with ((B2R x - v) - (B2R y - w)) by ring. unfold Rminus at 1. eapply Rle_trans; [apply Rabs_triang|].
  rewrite Rabs_Ropp. lra.
Qed.
(** By an exact factor. *)
Lemma near_mult a x v s : finite a -> near x v s -> Rabs (B2R a * v) + Rabs (B2R a) * s <= huge ->
  near (Bmult mode_NE a x) (B2R a * v) (Rabs (B2R a) * s + u * (Rabs (B2R a * v) + Rabs (B2R a) * s) + eta).
Proof.
  intros A (F & X) H. apply near_op with (w := B2R a * B2R x); [now apply ov_mult| |exact H].
  replace (B2R a * B2R x - B2R a * v) with (B2R a * (B2R x - v)) by ring. rewrite Rabs_mult. apply Rmult_le_compat_l; [apply Rabs_pos|exact X].
Qed.
Lemma tiny_eta : tiny = 32 * eta.
Proof. unfold tiny. change (-1070)%Z with (5 + -1075)%Z. rewrite bpow_plus. reflexivity. Qed.

(** a x + b in general. *)
Lemma line_near a r b : finite a -> finite r -> finite b -> let Q := Rabs (B2R a * B2R r) + Rabs (B2R b) in Q <= bpow radix2 990 ->
  near (Bplus mode_NE (Bmult mode_NE a r) b) (B2R a * B2R r + B2R b) (3 * u * Q + 3 * eta).
Proof.
  intros A R B Q H. pose proof u_pos as U. pose proof eta_pos as E.
  assert (HH : bpow radix2 990 * 8 <= huge) by (change 8 with (bpow radix2 3); rewrite <- bpow_plus; apply bpow_le; lia).
  assert (E1 : eta <= 1) by (change 1 with (bpow radix2 0); apply bpow_le; lia).
  assert (H1 : 1 <= bpow radix2 990) by (change 1 with (bpow radix2 0); apply bpow_le; lia).
  pose proof (Rabs_pos (B2R a * B2R r)) as P1. pose proof (Rabs_pos (B2R b)) as P2.
  assert (M : near (Bmult mode_NE a r) (B2R a * B2R r) (u * Rabs (B2R a * B2R r) + eta)).
  { eapply near_weaken; [apply (near_mult a r (B2R r) 0 A (near_self r R)); unfold Q in *; lra|]. lra. }
  pose proof (Rabs_triang (B2R a * B2R r) (B2R b)) as T. fold Q in T.
  assert (uA : u * Rabs (B2R a * B2R r) <= u * Q) by (apply Rmult_le_compat_l; unfold Q; lra).
  assert (uQ : u * Q <= / 1000 * Q) by (apply Rmult_le_compat_r; unfold Q; lra).
  eapply near_weaken; [apply (near_plus _ _ _ _ _ _ M (near_self b B)); lra|].
  assert (u * (Rabs (B2R a * B2R r + B2R b) + (u * Rabs (B2R a * B2R r) + eta + 0)) <= u * ((1 + / 1000) * Q + eta)) by (apply Rmult_le_compat_l; lra).
  assert (u * eta <= / 1000 * eta) by (apply Rmult_le_compat_r; lra).
  assert (0 <= u * Q) by (apply Rmult_le_pos; unfold Q; lra). lra.
Qed.
Lemma strain_ge_1 x y : x + y <> 0 -> 1 <= strain x y.
Proof.
  intros N. unfold strain. pose proof (Rabs_pos_lt _ N). apply Rmult_le_reg_r with (Rabs (x + y)); [assumption|].
  unfold Rdiv. rewrite Rmult_assoc, Rinv_l by lra. pose proof (Rabs_triang x y). lra.
Qed.
Lemma strain_mult x y : x + y <> 0 -> strain x y * Rabs (x + y) = Rabs x + Rabs y.
Proof. intros N. unfold strain. pose proof (Rabs_pos_lt _ N). field. lra. Qed.

(** ... relative to its value. *)
Lemma line_rel a r b : finite a -> finite r -> finite b -> let P := B2R a * B2R r + B2R b in let s := strain (B2R a * B2R r) (B2R b) in
  0 < P -> Rabs (ln P) <= 600 -> 8 * u * s <= 1 ->
  positive (Bplus mode_NE (Bmult mode_NE a r) b) /\ Rabs (ln (B2R (Bplus mode_NE (Bmult mode_NE a r) b)) - ln P) <= 8 * u * s.
Proof.
  intros A R B P s P0 LP S. destruct (huge_600 P P0 LP) as (PL & PU). pose proof u_pos as U.
  assert (N : B2R a * B2R r + B2R b <> 0) by (fold P; lra). pose proof (strain_ge_1 _ _ N) as S1. fold s in S1.
  pose proof (strain_mult _ _ N) as SM. fold s P in SM. rewrite (Rabs_pos_eq P) in SM by lra.
  assert (S50 : s <= bpow radix2 50).
  { assert (E : u * bpow radix2 53 = 1) by (unfold ulp_half; change (bpow radix2 53) with (IZR (2 ^ 53)); field; apply IZR_neq; lia).
    assert (E' : bpow radix2 53 = 8 * bpow radix2 50) by (change 53%Z with (3 + 50)%Z; now rewrite bpow_plus).
    apply Rmult_le_reg_l with (8 * u); [lra|]. rewrite E' in E. lra. }
  destruct (line_near a r b A R B) as (F & E).
  { rewrite <- SM. apply Rle_trans with (bpow radix2 50 * bpow radix2 900); [apply Rmult_le_compat; lra|]. rewrite <- bpow_plus. apply bpow_le. lia. }
  fold P in E. rewrite <- SM in E.
  assert (EP : 8 * eta <= u * P). { apply eta_8. eapply Rle_trans; [|exact PL]. apply bpow_le. lia. }
  assert (uPs : u * P <= u * s * P) by (apply Rmult_le_compat_r; nra).
  destruct (ln_close (B2R (Bplus mode_NE (Bmult mode_NE a r) b)) P (4 * u * s) P0) as (X0 & L).
  - split; [|lra]. apply Rmult_le_pos; lra.
  - eapply Rle_trans; [exact E|]. pose proof eta_pos. lra.
  - split; [split; [exact F|exact X0]|]. lra.
Qed.
