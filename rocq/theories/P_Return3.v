(** C100: ordinary parameters, and cases that meet the hypotheses. *)
From Coq Require Import ZArith Reals Lia Lra Psatz List.
From Flocq Require Import Core IEEE754.BinarySingleNaN.
From Verif Require Import M_Base M_F64 M_Curve M_CurveF64 S_F64 S_Curve S_Accuracy S_Return P_S15 P_F64 P_Curve3 P_CurveErr P_Ideal P_CurveErr2 P_CurveErr3 P_CurveErr4 P_Acc P_Acc2 P_Acc3 P_Acc4 P_Acc5 P_Acc6 P_Acc7 P_Acc9 P_Acc8 P_Curve P_Curve2 P_Return P_Return2.
Open Scope R_scope.

Notation n31 := (/ IZR (2 ^ 31)).
Lemma n31_u : n31 = 4194304 * u. Proof. unfold ulp_half. cbn. lra. Qed.

Section Ordinary.
Context (pow : f64 -> f64 -> f64) (lg ex : f64 -> f64) (AP : accurate_pow (2 * u) pow).
Notation O := (f64_ops pow lg ex).
Context (g a b c x : f64) (G : finite g) (TG : / 4 <= B2R g <= 4) (A : finite a) (TA : / 4 <= B2R a <= 4) (B : finite b) (TB : 0 <= B2R b <= 1)
  (C : finite c) (TC : Rabs (B2R c) <= 1) (X : finite x) (TX : 0 <= B2R x <= 1).
Let P := B2R a * B2R x + B2R b.
Context (P16 : / 16 <= P).

Lemma P_up : P <= 5. Proof. unfold P. nra. Qed.
Lemma ln_P : Rabs (ln P) <= 4 * ln 2.
Proof.
  pose proof P_up. assert (E : ln 16 = 4 * ln 2). { replace 16 with (Rpower 2 4); [apply ln_pow|]. replace 4 with (INR 4) by (cbn; lra). rewrite Rpower_pow by lra. lra. }
  apply Rabs_le. split.
  - assert (ln (/ 16) <= ln P) by (destruct (Req_dec (/ 16) P) as [<-|]; [|left; apply ln_increasing]; lra). rewrite ln_Rinv in * by lra. lra.
  - assert (ln P <= ln 16) by (left; apply ln_increasing; lra). lra.
Qed.
Lemma power_low : / 65536 <= Rpower P (B2R g).
Proof.
  pose proof ln_P as L. pose proof ln2_lower as L2. apply Rabs_le_inv in L.
  assert (E : ln 65536 = 16 * ln 2). { replace 65536 with (Rpower 2 16); [apply ln_pow|]. replace 16 with (INR 16) by (cbn; lra). rewrite Rpower_pow by lra. lra. }
  rewrite <- (exp_ln (/ 65536)) by lra. apply exp_le. rewrite ln_Rinv, E by lra. nra.
Qed.
Let r := there_error (2 * u) (B2R g) P (strain (B2R a * B2R x) (B2R b)) (B2R c).
Lemma r_small : 0 <= r <= 65620 * u /\ strain (B2R a * B2R x) (B2R b) = 1.
Proof.
  pose proof u_pos as U. pose proof u_tiny as UT. pose proof power_low as PL.
  assert (S : strain (B2R a * B2R x) (B2R b) = 1) by (apply strain_same; fold P; nra). split; [|exact S].
  unfold r, there_error. rewrite S, (Rabs_pos_eq (B2R g)) by lra.
  assert (T : 0 <= 2 * u + 8 * u * 1 * B2R g <= 34 * u) by nra.
  pose proof (relative_small (2 * u + 8 * u * 1 * B2R g) ltac:(lra)) as R1. set (w := Rpower P (B2R g)) in *.
  assert (IW : 0 < / w <= 65536). { split; [apply Rinv_0_lt_compat; lra|]. rewrite <- (Rinv_inv 65536). apply Rinv_le_contravar; lra. }
  assert (0 <= Rabs (w + B2R c) * / w <= 65537).
  { split; [apply Rmult_le_pos; [apply Rabs_pos|lra]|]. apply Rle_trans with ((w + 1) * / w).
    - apply Rmult_le_compat_r; [lra|]. eapply Rle_trans; [apply Rabs_triang|]. rewrite (Rabs_pos_eq w); lra.
    - replace ((w + 1) * / w) with (1 + / w) by (field; lra). lra. }
  replace (u * Rabs (w + B2R c) / w) with (u * (Rabs (w + B2R c) * / w)) by (unfold Rdiv; ring). nra.
Qed.
Lemma error_small : again_error (2 * u) (B2R g) (B2R a) (B2R b) P r <= n31.
Proof.
  pose proof u_pos as U. pose proof u_tiny as UT. destruct r_small as (RS & _). pose proof ln_P as L. pose proof ln2_upper as L2. pose proof tiny_u as TU. rewrite n31_u.
  assert (IG : / 4 <= / B2R g <= 4) by (split; [apply Rinv_le_contravar; lra|rewrite <- (Rinv_inv 4); apply Rinv_le_contravar; lra]).
  assert (IA : 0 < / B2R a <= 4) by (split; [apply Rinv_0_lt_compat; lra|rewrite <- (Rinv_inv 4); apply Rinv_le_contravar; lra]).
  assert (WR : 0 <= 2 * r / B2R g <= 524960 * u).
  { unfold Rdiv. split; [apply Rmult_le_pos; lra|]. replace (524960 * u) with (131240 * u * 4) by ring. apply Rmult_le_compat; lra. }
  pose proof (relative_small (2 * r / B2R g) ltac:(lra)) as RW. set (w := 2 * r / B2R g) in *.
  assert (EW : exp w = 1 + relative w) by (unfold relative; ring).
  unfold again_error. fold w. rewrite EW, (Rabs_pos_eq (B2R b)), (Rabs_pos_eq (B2R a)) by lra.
  assert (PA : 0 <= P / B2R a <= 5). { assert (0 <= B2R b * / B2R a <= 1 * 4) by (split; [apply Rmult_le_pos|apply Rmult_le_compat]; lra). unfold P. replace ((B2R a * B2R x + B2R b) / B2R a) with (B2R x + B2R b * / B2R a) by (field; lra). lra. }
  assert (PB : 0 <= (P * (1 + relative w) + B2R b) / B2R a <= 14).
  { assert (0 <= B2R b * / B2R a <= 1 * 4) by (split; [apply Rmult_le_pos|apply Rmult_le_compat]; lra).
    assert (0 <= P / B2R a * (1 + relative w) <= 5 * 2) by (split; [apply Rmult_le_pos|apply Rmult_le_compat]; lra).
    replace ((P * (1 + relative w) + B2R b) / B2R a) with (P / B2R a * (1 + relative w) + B2R b * / B2R a) by (field; lra). lra. }
  assert (Q : 0 <= 2 * u + u * (Rabs (ln P) + 9 / B2R g) <= 41 * u).
  { pose proof (Rabs_pos (ln P)). assert (0 <= 9 / B2R g <= 36) by (unfold Rdiv; lra).
    assert (0 <= u * (Rabs (ln P) + 9 / B2R g) <= u * 39) by (split; [apply Rmult_le_pos|apply Rmult_le_compat_l]; lra). lra. }
  pose proof (relative_small (2 * u + u * (Rabs (ln P) + 9 / B2R g)) ltac:(lra)) as RQ. set (n := relative (2 * u + u * (Rabs (ln P) + 9 / B2R g))) in *.
  assert ((2 * n + 4 * u) * ((P * (1 + relative w) + B2R b) / B2R a) <= (100 * u) * 14) by (apply Rmult_le_compat; lra).
  assert (relative w * (P / B2R a) <= (583290 * u) * 5) by (apply Rmult_le_compat; lra).
  lra.
Qed.
Lemma ordinary_facts : 0 < P /\ Rabs (ln P) <= 590 /\ B2R g * Rabs (ln P) <= 590 /\
  8 * u * strain (B2R a * B2R x) (B2R b) <= 1 /\ 8 * u * strain (B2R a * B2R x) (B2R b) * B2R g <= 1 /\ r <= / 4 /\ 2 * r <= B2R g.
Proof.
  pose proof u_pos as U. pose proof u_tiny as UT. destruct r_small as (RS & S). rewrite S. pose proof ln_P as L. pose proof ln2_range as L2. pose proof (Rabs_pos (ln P)).
  repeat split; try lra; nra.
Qed.
Lemma ordinary_returns t : t = 3%Z \/ t = 6%Z ->
  exists y z, eval_parametric O t [g; a; b; c] x = Some y /\ eval_parametric O (- t) [g; a; b; c] y = Some z /\ near z (B2R x) n31.
Proof.
  intros T. pose proof u_pos as U. pose proof u_tiny as UT. pose proof tol64_small as TS. pose proof big_900 as B9. destruct ordinary_facts as (F1 & F2 & F3 & F4 & F5 & F6 & F7).
  assert (Ab : Rabs (B2R b) <= bpow radix2 900) by (rewrite Rabs_pos_eq; lra).
  assert (Aa : B2R (f64_cst Ltol) <= Rabs (B2R a)) by (rewrite Rabs_pos_eq; lra).
  destruct T as [->| ->].
  - destruct (type3_returns pow lg ex (2 * u) AP ltac:(lra) g a b x G ltac:(lra) A Aa B Ab X F1 F2 F3 F4 F5 c C ltac:(lra) F6 F7 ltac:(lra) ltac:(lra)) as (y & z & E1 & E2 & N).
    exists y, z. split; [exact E1|split; [exact E2|]]. exact (near_weaken _ _ _ _ N error_small).
  - destruct (type6_returns pow lg ex (2 * u) AP ltac:(lra) g a b x G ltac:(lra) A Aa B Ab X F1 F2 F3 F4 F5 c C ltac:(lra) F6 F7) as (y & z & E1 & E2 & N).
    exists y, z. split; [exact E1|split; [exact E2|]]. exact (near_weaken _ _ _ _ N error_small).
Qed.
End Ordinary.

Definition survives (t : Z) (ps : list f64) (x : f64) (e : R) : Prop :=
  exists y z, calc t ps x = Some y /\ calc (- t) ps y = Some z /\ near z (B2R x) e.
Lemma survives_weaken t ps x e e' : (exists y z, calc t ps x = Some y /\ calc (- t) ps y = Some z /\ near z (B2R x) e) -> e <= e' -> survives t ps x e'.
Proof. intros (y & z & E1 & E2 & N) L. exists y, z. split; [exact E1|split; [exact E2|]]. now apply (near_weaken z (B2R x) e). Qed.

(** log10 (x + 1) + 1 at 1. *)
Lemma case7_back : survives 7 [one; one; one; one; one] one n40.
Proof.
  vals. pose proof log2_range as LR. pose proof (relative_small (2 * u) ltac:(lra)) as R2.
  assert (UL : 0 <= u * log_10 2 <= u * 1) by (split; [apply Rmult_le_pos|apply Rmult_le_compat_l]; lra).
  assert (P1 : Rpower 1 1 = 1) by (apply Rpower_1; lra).
  set (E := log_there (2 * u) u 1 1 1 1 1).
  assert (EE : 0 <= E <= 50 * u).
  { unfold E, log_there. rewrite strain_11. replace (1 * 1 + 1) with 2 by lra. rewrite (Rabs_pos_eq 1), (Rabs_pos_eq (log_10 2)), (Rabs_pos_eq (1 * log_10 2 + 1)) by lra. lra. }
  pose proof (relative_small (4 * (E / Rabs 1)) ltac:(rewrite (Rabs_pos_eq 1) by lra; lra)) as R4.
  set (r := log_seen 1 1 1 1 E).
  assert (RR : 0 <= r <= 500 * u) by (unfold r, log_seen; rewrite (Rabs_pos_eq 1) in * by lra; lra).
  set (q := log_again (2 * u) 1 1 1 1 E).
  assert (QQ : 0 <= q <= 300 * u).
  { unfold q, log_again. replace (1 * 1 + 1) with 2 by lra. rewrite (Rabs_pos_eq 1), (Rabs_pos_eq (log_10 2)) in * by lra.
    assert (UE : 0 <= u * E <= u * 1) by (split; [apply Rmult_le_pos|apply Rmult_le_compat_l]; lra).
    pose proof (relative_small (2 * u + 4 * (3 * u * (log_10 2 + E / 1) + bpow radix2 (-1055))) ltac:(lra)) as R5. set (n := relative (2 * u + 4 * (3 * u * (log_10 2 + E / 1) + bpow radix2 (-1055)))) in *.
    assert (X4 : exp (4 * (E / 1)) = 1 + relative (4 * (E / 1))) by (unfold relative; ring). rewrite X4.
    assert (NN : 0 <= 2 * n + 2 * u <= 72 * u) by lra. assert (MM : 0 <= 4 / 3 * ((2 * (1 + relative (4 * (E / 1))) + 1) / (1 * 1)) <= 41 / 10) by lra.
    split; [apply Rmult_le_pos; lra|]. apply Rle_trans with (72 * u * (41 / 10)); [apply Rmult_le_compat; lra|lra]. }
  assert (UR : 0 <= u * r <= u * 1) by (split; [apply Rmult_le_pos|apply Rmult_le_compat_l]; lra).
  apply (survives_weaken _ _ _ (log_return (2 * u) 1 1 r q)).
  - pose proof (type7_returns ideal_pow ideal_log (fun x => x) (2 * u) u ideal_accurate ltac:(lra) ideal_log_accurate ltac:(lra) one one one one one one F1 ltac:(num) F1 ltac:(num) ltac:(num) F1 ltac:(num) F1 F1 ltac:(num) ltac:(fin)) as H.
    rewrite !V1, P1, ln_1 in H. fold E in H. fold r in H. fold q in H. rewrite strain_11 in H. replace (1 * 1 + 1) with 2 in H by lra. rewrite (Rabs_pos_eq (log_10 2)), Rabs_R0, Rmult_1_r, ln_1, Rabs_R0 in H by lra.
    rewrite V1. apply H; lra.
  - unfold log_return. rewrite ln_1, Rabs_R0.
    pose proof (relative_small (2 * u + (u * (1 * 0 + 2 * r) + 4 * q + 8 * u) / 1) ltac:(lra)) as R6.
    set (n := relative (2 * u + (u * (1 * 0 + 2 * r) + 4 * q + 8 * u) / 1)) in *. pose proof (relative_small (2 * r / 1) ltac:(lra)) as R7.
    assert (X4 : exp (2 * r / 1) = 1 + relative (2 * r / 1)) by (unfold relative; ring). rewrite X4.
    assert (0 <= n * (1 * (1 + relative (2 * r / 1))) <= n * 2) by (split; [apply Rmult_le_pos|apply Rmult_le_compat_l]; lra). lra.
Qed.

(** 2^(x + 1) + 1 at 1. *)
Lemma case8_back : survives 8 [one; two; one; one; one] one n40.
Proof.
  vals. pose proof log2_range as LR. pose proof ln2_lower as L2. pose proof ln10_up as L10u. pose proof ln10_low as L10.
  assert (LG : / 6 <= log_10 2). { unfold log_10, Rdiv. apply Rle_trans with (685 / 1000 * / 4); [lra|]. apply Rmult_le_compat; try lra. apply Rinv_le_contravar; lra. }
  assert (P4 : Rpower 2 2 = 4) by (rewrite Rpower_two; lra).
  set (r := exp_there (2 * u) 1 2 1 1 1 1).
  assert (RR : 0 <= r <= 40 * u).
  { unfold r, exp_there. replace (1 * 1 + 1) with 2 by lra. rewrite P4, (Rabs_pos_eq (1 * 1)), (Rabs_pos_eq 1), (Rabs_pos_eq (ln 2)), (Rabs_pos_eq (1 * 4 + 1)) by lra.
    assert (Q : 0 <= ln 2 * (3 * u * (1 * 1 + 1) + tiny) <= 1 * (7 * u)) by (split; [apply Rmult_le_pos|apply Rmult_le_compat]; lra).
    pose proof (relative_small (2 * u + ln 2 * (3 * u * (1 * 1 + 1) + tiny)) ltac:(lra)) as R2. lra. }
  assert (IL : 0 < / ln 2 <= 2) by (split; [apply Rinv_0_lt_compat; lra|apply Rle_trans with (/ / 2); [apply Rinv_le_contravar; lra|rewrite Rinv_inv; lra]]).
  apply (survives_weaken _ _ _ (exp_return u 2 1 1 1 r)).
  - pose proof (type8_returns ideal_pow ideal_log (fun x => x) (2 * u) u ideal_accurate ltac:(lra) ideal_log_accurate ltac:(lra) one two one one one one F1 ltac:(num) ltac:(fin) ltac:(num) F1 ltac:(num) F1 ltac:(num) F1 F1) as H.
    rewrite !V1, !V2 in H. fold r in H. replace (1 * 1 + 1) with 2 in H by lra. rewrite P4 in H.
    rewrite (Rabs_pos_eq (1 * 1)), (Rabs_pos_eq 1), (Rabs_pos_eq (ln 2)), (Rabs_pos_eq (1 * 4)), (Rabs_pos_eq (2 * ln 2)) in H by lra.
    assert (L4 : ln (1 * 4) = 2 * ln 2). { rewrite Rmult_1_l, <- P4. apply ln_pow. }
    rewrite L4, (Rabs_pos_eq (2 * ln 2)) in H by lra. rewrite V1. apply H; try lra.
    assert (ln 2 * (3 * u * (1 * 1 + 1) + tiny) <= 1 * (7 * u)) by (apply Rmult_le_compat; lra). lra.
  - unfold exp_return. replace (1 * 1 + 1) with 2 by lra. rewrite (Rabs_pos_eq 1), (Rabs_pos_eq 2), (Rabs_pos_eq (ln 2)), (Rabs_pos_eq (log_10 2)), (Rabs_pos_eq (2 * log_10 2)) by lra.
    assert (UL : 0 <= u * log_10 2 <= u * 1) by (split; [apply Rmult_le_pos|apply Rmult_le_compat_l]; lra).
    assert (UR : 0 <= u * r <= u * 1) by (split; [apply Rmult_le_pos|apply Rmult_le_compat_l]; lra).
    assert (W : 0 <= 2 * r / ln 2 <= 160 * u) by (unfold Rdiv; split; [apply Rmult_le_pos|replace (160 * u) with (80 * u * 2) by ring; apply Rmult_le_compat]; lra).
    assert (W' : 2 * r / (ln 2 * 1) <= 160 * u) by (rewrite Rmult_1_r; lra).
    assert (UW : u * (2 * r / ln 2) <= u * 1) by (apply Rmult_le_compat_l; lra).
    assert (IG : 0 < / log_10 2 <= 6) by (split; [apply Rinv_0_lt_compat; lra|rewrite <- (Rinv_inv 6); apply Rinv_le_contravar; lra]).
    assert (Z : 2 * (2 * u * (2 * log_10 2 + r) + 8 * u) / log_10 2 <= (28 * u) * 6) by (unfold Rdiv; apply Rmult_le_compat; lra).
    lra.
Qed.

(** The S curve of gamma 1 at 1/2. *)
Lemma case108_back : survives 108 [one] half n40.
Proof.
  vals. assert (VV : Rpower (1 - / 2) (/ 1) = / 2) by (rewrite Rinv_1; replace (1 - / 2) with (/ 2) by lra; apply Rpower_1; lra).
  set (l := Rabs (ln (/ 2))) in *. assert (L0 : 0 <= l) by apply Rabs_pos.
  assert (UL : 0 <= u * l <= u * 1) by (split; [apply Rmult_le_pos|apply Rmult_le_compat_l]; lra).
  set (p := (2 * relative (2 * u + u * (l + 8) / 1) + 2 * u) * 3).
  pose proof (relative_small (2 * u + u * (l + 8) / 1) ltac:(lra)) as R1.
  assert (PP : 0 <= p <= 84 * u) by (unfold p; lra).
  set (r := s_there (2 * u) 1 (/ 2)).
  assert (RR : 0 <= r <= 400 * u).
  { unfold r, s_there. rewrite VV. replace (1 - / 2) with (/ 2) by lra. rewrite strain_half. fold l. fold p. pose proof (relative_small (2 * u + (u * l + 4 * p) / 1) ltac:(lra)). lra. }
  set (q := s_seen 1 (/ 2) r).
  assert (QQ : 0 <= q <= 1000 * u).
  { unfold q, s_seen. rewrite VV. pose proof (relative_small (2 * r * 1) ltac:(lra)). lra. }
  pose proof (relative_small (2 * u) ltac:(lra)) as R2.
  set (p' := (2 * relative (2 * u) + 2 * u) * (8 / (3 * / 2))). assert (PP' : 0 <= p' <= 42 * u) by (unfold p'; lra).
  apply (survives_weaken _ _ _ (s_return (2 * u) 1 (/ 2) q)).
  - pose proof (type108_returns ideal_pow ideal_log (fun x => x) (2 * u) ideal_accurate ltac:(lra) one half F1 ltac:(num) FH) as H.
    rewrite !V1, !VH in H. fold r in H. fold q in H. rewrite VV in H. replace (1 - / 2) with (/ 2) in H by lra. rewrite strain_half in H. fold l in H. fold p in H. fold p' in H.
    rewrite VH. apply H; lra.
  - unfold s_return. rewrite VV. fold p'. pose proof (relative_small (2 * u + 2 * p' * 1) ltac:(lra)) as R3. pose proof (relative_small (2 * q * 1) ltac:(lra)) as R4.
    set (n := relative (2 * u + 2 * p' * 1)) in *. assert (X : exp (2 * q * 1) = 1 + relative (2 * q * 1)) by (unfold relative; ring). rewrite X.
    assert ((2 * n + 2 * u) * (1 + (1 - / 2) * (1 + relative (2 * q * 1))) <= (2 * n + 2 * u) * 2) by (apply Rmult_le_compat_l; lra). lra.
Qed.

(** (x + 1)^2 + 1 above 1/2 and 2 x + 1 below. *)
Lemma case5_back : survives 5 [two; one; one; two; half; one; one] one n31.
Proof.
  vals. assert (TG : / 4 <= B2R two <= 4) by num. assert (TA : / 4 <= B2R one <= 4) by num.
  assert (TB : 0 <= B2R one <= 1) by num. assert (TC : Rabs (B2R one) <= 1) by num. assert (P16 : / 16 <= B2R one * B2R one + B2R one) by (rewrite V1; lra).
  destruct (ordinary_facts two one one one one TG TA TB TC TB P16) as (G1 & G2 & G3 & G4 & G5 & G6 & G7).
  eapply survives_weaken; [|exact (error_small two one one one one TG TA TB TC TB P16)].
  apply (type5_returns ideal_pow ideal_log (fun x => x) (2 * u) ideal_accurate ltac:(lra) two one one one F2 ltac:(num) F1 ltac:(num) F1 ltac:(num) F1 G1 G2 G3 G4 G5 one F1 ltac:(num) G6 G7 two half one);
    [num|apply ideal_monotone|fin|assumption|num|assumption|].
  intros v EV.
  (* at the break the power is 13/4, the line 2 *)
  assert (PH : / 16 <= B2R one * B2R half + B2R one) by (rewrite V1, VH; lra). assert (TH : 0 <= B2R half <= 1) by num.
  destruct (ordinary_facts two one one one half TG TA TB TC TH PH) as (K1 & K2 & K3 & K4 & K5 & K6 & K7).
  assert (SA : strain (B2R one * B2R half) (B2R one) = 1) by (apply strain_same; rewrite ?V1, ?VH; lra).
  destruct (type5_upper_near ideal_pow ideal_log (fun x => x) (2 * u) ideal_accurate two one one F2 F1 F1 half FH K1 ltac:(lra) ltac:(rewrite Rabs_mult, (Rabs_pos_eq (B2R two)) by lra; lra) K4 ltac:(rewrite (Rabs_pos_eq (B2R two)) by lra; exact K5) ltac:(lra) two half one one FH ltac:(lra) F1 ltac:(num)) as (y & EY & FY & NY).
  assert (v = y) as -> by congruence.
  assert (TY : 2 <= B2R y).
  { rewrite SA, !V1, !V2, !VH in NY. replace (1 * / 2 + 1) with (3 / 2) in NY by lra. rewrite Rpower_two in NY by lra.
    rewrite (Rabs_pos_eq 2), (Rabs_pos_eq (3 / 2 * (3 / 2) + 1)) in NY by lra. pose proof (relative_small (2 * u + 8 * u * 1 * 2) ltac:(lra)). apply Rabs_le_inv in NY. lra. }
  apply (le64_trans _ two).
  - apply geb_iff. vm_compute. reflexivity.
  - apply le64_fin; [exact F2|exact FY|num].
Qed.
