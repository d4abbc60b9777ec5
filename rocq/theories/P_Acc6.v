(** Accuracy of the reverse curves of types 7 and 8 and of the S curve (C97). *)
From Coq Require Import ZArith Reals Lia Lra Psatz.
From Flocq Require Import Core Relative IEEE754.BinarySingleNaN.
From Verif Require Import M_Base M_F64 M_Curve M_CurveF64 S_F64 S_Curve S_Accuracy P_S15 P_F64 P_Curve3 P_CurveErr P_Ideal P_CurveErr2 P_CurveErr3 P_CurveErr4 P_Acc P_Acc2 P_Acc3 P_Acc4 P_Acc5.
Open Scope R_scope.

(** A difference of which one term is only approximate. *)
Lemma diff_log (z : f64) v w T t : ov z = cap (rne w) /\ is_nan z = false -> Rabs (w - v) <= t * T -> 0 <= T -> 0 <= t <= / 8 ->
  0 < v -> Rabs (ln v) <= 600 -> forall s, 1 <= s -> T <= s * v -> let r := (2 * t + 2 * u) * s in r <= / 4 ->
  positive z /\ Rabs (ln (B2R z) - ln v) <= 2 * r.
Proof.
  intros O W T0 TS V0 LV s S1 SV r R4. pose proof u_pos as U. pose proof eta_pos as E. destruct (huge_600 v V0 LV) as (VL & VU).
  assert (HH : bpow radix2 900 * 8 <= huge) by (change 8 with (bpow radix2 3); rewrite <- bpow_plus; apply bpow_le; lia).
  assert (EV : 8 * eta <= u * v) by (apply eta_8; eapply Rle_trans; [|exact VL]; apply bpow_le; lia).
  assert (tT : 0 <= t * T <= t * s * v) by (split; [apply Rmult_le_pos; lra|rewrite Rmult_assoc; apply Rmult_le_compat_l; lra]).
  assert (ts : t * s <= / 8). { assert (0 <= u * s) by (apply Rmult_le_pos; lra). unfold r in R4. lra. }
  assert (tsv : t * s * v <= / 8 * v) by (apply Rmult_le_compat_r; lra).
  destruct (near_op z v w (t * T) O W) as (F & N); [rewrite Rabs_pos_eq; lra|]. rewrite (Rabs_pos_eq v) in N by lra.
  assert (uv : u * v <= u * s * v) by (rewrite Rmult_assoc; apply Rmult_le_compat_l; [lra|]; assert (v * 1 <= v * s) by (apply Rmult_le_compat_l; lra); lra).
  assert (utv : u * (v + t * T) <= u * v + / 1000 * (t * T)).
  { assert (u * (t * T) <= / 1000 * (t * T)) by (apply Rmult_le_compat_r; lra). lra. }
  assert (RV : Rabs (B2R z - v) <= r * v).
  { eapply Rle_trans; [exact N|]. unfold r. lra. }
  assert (r0 : 0 <= r) by (unfold r; apply Rmult_le_pos; lra).
  destruct (ln_close (B2R z) v r V0 ltac:(lra) RV) as (P & L). split; [now split|exact L].
Qed.
Lemma minus_log p c T t : near p T (t * T) -> finite c -> 0 <= T -> 0 <= t <= / 8 -> let v := T - B2R c in let s := strain T (- B2R c) in
  0 < v -> Rabs (ln v) <= 600 -> let r := (2 * t + 2 * u) * s in r <= / 4 ->
  positive (Bminus mode_NE p c) /\ Rabs (ln (B2R (Bminus mode_NE p c)) - ln v) <= 2 * r.
Proof.
  intros (F & N) C T0 TS v s V0 LV r R4. assert (NV : T + - B2R c <> 0) by (fold (T - B2R c); fold v; lra).
  pose proof (strain_mult _ _ NV) as SM. fold s in SM. change (T + - B2R c) with v in SM. rewrite (Rabs_pos_eq v), (Rabs_pos_eq T) in SM by lra.
  apply (diff_log _ v (B2R p - B2R c) T t (ov_minus p c F C)); try assumption.
  - unfold v. replace (B2R p - B2R c - (T - B2R c)) with (B2R p - T) by ring. exact N.
  - now apply strain_ge_1.
  - rewrite SM. pose proof (Rabs_pos (- B2R c)). lra.
Qed.
Lemma from_log p c T t : near p T (t * T) -> finite c -> 0 <= T -> 0 <= t <= / 8 -> let v := B2R c - T in let s := strain (B2R c) (- T) in
  0 < v -> Rabs (ln v) <= 600 -> let r := (2 * t + 2 * u) * s in r <= / 4 ->
  positive (Bminus mode_NE c p) /\ Rabs (ln (B2R (Bminus mode_NE c p)) - ln v) <= 2 * r.
Proof.
  intros (F & N) C T0 TS v s V0 LV r R4. assert (NV : B2R c + - T <> 0) by (fold (B2R c - T); fold v; lra).
  pose proof (strain_mult _ _ NV) as SM. fold s in SM. change (B2R c + - T) with v in SM. rewrite (Rabs_pos_eq v), Rabs_Ropp, (Rabs_pos_eq T) in SM by lra.
  apply (diff_log _ v (B2R c - B2R p) T t (ov_minus c p C F)); try assumption.
  - unfold v. replace (B2R c - B2R p - (B2R c - T)) with (- (B2R p - T)) by ring. rewrite Rabs_Ropp. exact N.
  - now apply strain_ge_1.
  - rewrite SM. pose proof (Rabs_pos (B2R c)). lra.
Qed.
(** Dividing by a positive number. *)
Lemma div_log e b D t : positive e -> positive b -> 0 < D -> Rabs (ln (B2R e) - ln D) <= t -> Rabs (ln (D / B2R b)) <= 600 -> t <= 1 ->
  positive (Bdiv mode_NE e b) /\ Rabs (ln (B2R (Bdiv mode_NE e b)) - ln (D / B2R b)) <= t + 4 * u.
Proof.
  intros (FE & E0) (FB & B0) D0 E L T. pose proof u_pos as U. pose proof eta_pos as EP.
  assert (M0 : 0 < B2R e / B2R b) by (apply Rmult_lt_0_compat; [exact E0|now apply Rinv_0_lt_compat]).
  assert (LM : ln (B2R e / B2R b) - ln (D / B2R b) = ln (B2R e) - ln D).
  { unfold Rdiv. rewrite !ln_mult by (assumption || now apply Rinv_0_lt_compat). ring. }
  assert (LB : Rabs (ln (B2R e / B2R b)) <= 601).
  { replace (ln (B2R e / B2R b)) with ((ln (B2R e) - ln D) + ln (D / B2R b)) by lra. eapply Rle_trans; [apply Rabs_triang|]. lra. }
  assert (LE : bpow radix2 (-900) <= B2R e / B2R b <= bpow radix2 900).
  { apply Rabs_le_inv in LB. pose proof ln2_lower.
    split; apply Rnot_lt_le; intros C; apply ln_increasing in C; try apply bpow_gt_0; try exact M0; rewrite ln_bpow in C; lra. }
  destruct (op_fin _ _ (ov_div e b FE FB ltac:(lra))) as (F & N).
  { rewrite Rabs_pos_eq by lra. eapply Rle_trans; [apply LE|]. apply bpow_le. lia. }
  rewrite (Rabs_pos_eq (B2R e / B2R b)) in N by lra.
  assert (EV : 8 * eta <= u * (B2R e / B2R b)) by (apply eta_8; eapply Rle_trans; [|apply LE]; apply bpow_le; lia).
  destruct (ln_close (B2R (Bdiv mode_NE e b)) (B2R e / B2R b) (2 * u) M0 ltac:(lra) ltac:(lra)) as (P & L').
  split; [now split|]. replace (ln (B2R (Bdiv mode_NE e b)) - ln (D / B2R b)) with ((ln (B2R (Bdiv mode_NE e b)) - ln (B2R e / B2R b)) + (ln (B2R e / B2R b) - ln (D / B2R b))) by ring.
  eapply Rle_trans; [apply Rabs_triang|]. rewrite LM. lra.
Qed.
Lemma cst10 : B2R (f64_cst L10) = 10 /\ is_finite (f64_cst L10) = true.
Proof. destruct (cst_val L10 10 0 eq_refl ltac:(lia) ltac:(lia)) as (E & F). split; [rewrite E; cbn; lra|exact F]. Qed.
(** (x - b) / a. *)
Lemma sub_div_near x v s a b : near x v s -> finite a -> finite b -> 0 <= s <= bpow radix2 900 -> B2R (f64_cst Ltol) <= Rabs (B2R a) -> Rabs v + Rabs (B2R b) <= bpow radix2 900 ->
  near (Bdiv mode_NE (Bminus mode_NE x b) a) ((v - B2R b) / B2R a) ((2 * s + 4 * u * (Rabs v + Rabs (B2R b))) / Rabs (B2R a) + bpow radix2 (-1055)).
Proof.
  intros N A B (S0 & SU) TA Q9. pose proof u_pos as U. pose proof eta_pos as E. pose proof tol64_small as TS.
  assert (E2 : eta <= 1) by (change 1 with (bpow radix2 0); apply bpow_le; lia).
  assert (H1 : 1 <= bpow radix2 900) by (change 1 with (bpow radix2 0); apply bpow_le; lia).
  assert (HH : bpow radix2 900 * 1048576 <= huge) by (change 1048576 with (bpow radix2 20); rewrite <- bpow_plus; apply bpow_le; lia).
  set (Q := Rabs v + Rabs (B2R b)) in *. assert (D : Rabs (v - B2R b) <= Q).
  { unfold Rminus. eapply Rle_trans; [apply Rabs_triang|]. rewrite Rabs_Ropp. unfold Q. lra. }
  assert (Q0 : 0 <= Q) by (pose proof (Rabs_pos v); pose proof (Rabs_pos (B2R b)); unfold Q; lra).
  assert (us : u * s <= / 1000 * s) by (apply Rmult_le_compat_r; lra).
  assert (uQ : 0 <= u * Q <= / 1000 * Q) by (split; [apply Rmult_le_pos|apply Rmult_le_compat_r]; lra).
  assert (M : near (Bminus mode_NE x b) (v - B2R b) (11 / 10 * s + u * Q + eta)).
  { eapply near_weaken; [apply (near_minus _ _ _ _ _ _ N (near_self b B)); lra|].
    assert (u * (Rabs (v - B2R b) + (s + 0)) <= u * (Q + s)) by (apply Rmult_le_compat_l; lra). lra. }
  set (m := 11 / 10 * s + u * Q + eta) in *.
  assert (NA : B2R a <> 0) by (intros Z; rewrite Z, Rabs_R0 in TA; lra). set (z := Rabs (B2R a)) in *. assert (Z0 : 0 < z) by lra.
  pose proof (Rinv_0_lt_compat _ Z0) as I0.
  assert (IU : / z <= 20000). { rewrite <- (Rinv_inv 20000). apply Rinv_le_contravar; [lra|]. destruct cst_tol as (ET & _). rewrite ET in TA. lra. }
  assert (QZ : 0 <= Q * / z <= Q * 20000) by (split; [apply Rmult_le_pos; lra|apply Rmult_le_compat_l; lra]).
  assert (SZ : 0 <= s * / z <= s * 20000) by (split; [apply Rmult_le_pos; lra|apply Rmult_le_compat_l; lra]).
  assert (EZ : 0 <= eta * / z <= eta * 20000) by (split; [apply Rmult_le_pos; lra|apply Rmult_le_compat_l; lra]).
  assert (MZ : m / z = 11 / 10 * (s * / z) + u * (Q * / z) + eta * / z) by (unfold m, Rdiv; ring).
  assert (VZ : Rabs ((v - B2R b) / B2R a) <= Q * / z).
  { unfold Rdiv. rewrite Rabs_mult, Rabs_inv. fold z. apply Rmult_le_compat_r; lra. }
  assert (uQZ : 0 <= u * (Q * / z) <= / 1000 * (Q * / z)) by (split; [apply Rmult_le_pos|apply Rmult_le_compat_r]; lra).
  eapply near_weaken; [apply (near_div _ _ _ _ M A NA); fold z; rewrite MZ; lra|]. fold z. rewrite MZ.
  replace ((2 * s + 4 * u * Q) / z) with (2 * (s * / z) + 4 * (u * (Q * / z))) by (unfold Rdiv; ring).
  assert (u * (Rabs ((v - B2R b) / B2R a) + (11 / 10 * (s * / z) + u * (Q * / z) + eta * / z)) <= u * (Q * / z + (11 / 10 * (s * / z) + u * (Q * / z) + eta * / z))) by (apply Rmult_le_compat_l; lra).
  assert (u * (11 / 10 * (s * / z) + u * (Q * / z) + eta * / z) <= / 1000 * (11 / 10 * (s * / z) + u * (Q * / z) + eta * / z)) by (apply Rmult_le_compat_r; lra).
  assert (EE : 30000 * eta <= bpow radix2 (-1055)).
  { change (bpow radix2 (-1055)) with (bpow radix2 (20 + -1075)). rewrite bpow_plus. change (bpow radix2 20) with 1048576. lra. }
  lra.
Qed.

Section More.
Context (pow : f64 -> f64 -> f64) (lg ex : f64 -> f64) (k : R) (AP : accurate_pow k pow) (KS : 0 <= k <= / 100).
Notation O := (f64_ops pow lg ex).
Notation recip g := (Bdiv mode_NE (f64_cst L1) g).

Lemma rel_small e : 0 <= e <= / 10 -> 0 <= relative e <= / 8.
Proof. intros H. split; [now apply relative_pos|]. unfold relative. pose proof (exp_small e H). lra. Qed.

Lemma type_m7_near g a b c d y : finite g -> B2R (f64_cst Ltol) <= B2R g <= 10000 -> finite a -> B2R (f64_cst Ltol) <= B2R a ->
  finite b -> B2R (f64_cst Ltol) <= B2R b -> finite c -> finite d -> finite y ->
  let q := (B2R y - B2R d) / B2R a in let t := k + 4 * (3 * u * Rabs q + bpow radix2 (-1055)) in let T := Rpower 10 q in
  let D := T - B2R c in let r := (2 * relative t + 2 * u) * strain T (- B2R c) in let M := D / B2R b in
  Rabs (B2R y - B2R d) <= bpow radix2 900 -> Rabs q <= 100 -> 0 < D -> Rabs (ln D) <= 600 -> Rabs (ln M) <= 600 -> Rabs (ln M) <= 600 * B2R g ->
  r <= / 4 -> 2 * r + 4 * u <= B2R g ->
  exists x, eval_parametric O (-7) [g; a; b; c; d] y = Some x /\
    near x (Rpower M (/ B2R g)) (relative (k + (u * Rabs (ln M) + 4 * r + 8 * u) / B2R g) * Rpower M (/ B2R g)).
Proof.
  intros G TG A TA B TB C D Y q t T DD r M HY HQ D0 LD LM LM' R4 RG. pose proof u_pos as U. pose proof tol64_small as TS.
  pose proof ln10_low as LT10. pose proof ln10_up as U10. destruct cst10 as (E10 & F10).
  assert (PG : positive g) by (split; [exact G|lra]). assert (PA : positive a) by (split; [exact A|lra]). assert (PB : positive b) by (split; [exact B|lra]).
  destruct (over_near y Y a d A D ltac:(rewrite Rabs_pos_eq; lra) HY) as (FQ & NQ). fold q in NQ.
  set (qq := Bdiv mode_NE (Bminus mode_NE y d) a) in *.
  set (w := 3 * u * Rabs q + bpow radix2 (-1055)) in *. assert (W0 : 0 <= w) by (eapply Rle_trans; [apply Rabs_pos|exact NQ]).
  assert (W1 : w <= / 100).
  { assert (u <= / 100000). { unfold ulp_half. change (2 ^ 53)%Z with 9007199254740992%Z. apply Rinv_le_contravar; lra. }
    assert (u * Rabs q <= / 100000 * 100) by (apply Rmult_le_compat; try apply Rabs_pos; lra).
    assert (bpow radix2 (-1055) <= / 1024) by (change (/ 1024) with (bpow radix2 (-10)); apply bpow_le; lia). unfold w. lra. }
  assert (N10 : Rabs (B2R qq * ln 10 - q * ln 10) <= 4 * w).
  { rewrite <- Rmult_minus_distr_r, Rabs_mult, (Rabs_pos_eq (ln 10)) by lra. rewrite Rmult_comm. apply Rmult_le_compat; try apply Rabs_pos; lra. }
  assert (Q10 : Rabs (q * ln 10) <= 400) by (rewrite Rabs_mult, (Rabs_pos_eq (ln 10)) by lra; replace 400 with (100 * 4) by lra; apply Rmult_le_compat; try apply Rabs_pos; lra).
  destruct (AP (f64_cst L10) qq) as (PT & ET); [split; [exact F10|rewrite E10; lra]|exact FQ| |].
  { rewrite E10. replace (B2R qq * ln 10) with ((B2R qq * ln 10 - q * ln 10) + q * ln 10) by ring. eapply Rle_trans; [apply Rabs_triang|]. lra. }
  rewrite E10 in ET. assert (ET' : Rabs (ln (B2R (pow (f64_cst L10) qq)) - q * ln 10) <= t).
  { replace (ln (B2R (pow (f64_cst L10) qq)) - q * ln 10) with ((ln (B2R (pow (f64_cst L10) qq)) - B2R qq * ln 10) + (B2R qq * ln 10 - q * ln 10)) by ring.
    eapply Rle_trans; [apply Rabs_triang|]. unfold t. lra. }
  pose proof (rel_near _ _ _ PT ET') as NT. change (exp (q * ln 10)) with T in NT.
  assert (tB : 0 <= t <= / 10) by (unfold t; lra). pose proof (rel_small t tB) as RT. assert (T0 : 0 < T) by apply exp_pos.
  destruct (minus_log _ c T (relative t) NT C ltac:(lra) RT D0 LD R4) as (PD & ED). fold DD r in ED.
  assert (M0 : 0 < M) by (apply Rmult_lt_0_compat; [exact D0|apply Rinv_0_lt_compat, PB]).
  destruct (div_log _ b DD (2 * r) PD PB D0 ED LM ltac:(lra)) as (PM & EM). fold M in EM.
  assert (r0 : 0 <= r).
  { assert (0 <= 2 * r); [|lra]. eapply Rle_trans; [apply Rabs_pos|exact ED]. }
  destruct (root_near pow k AP KS g _ (ln M) (2 * r + 4 * u) G TG PM EM ltac:(lra) LM') as (_ & NX & _).
  eexists. split.
  - ev. fold qq. 
    assert (TF : forall v, positive v -> B2R (f64_cst Ltol) <= B2R v -> f64_ltb v (f64_cst Ltol) = false).
    { intros v PV TV. rewrite fin_ltb by (apply PV || apply cst_tol). apply Rlt_bool_false. exact TV. }
    rewrite !TF by (assumption || lra). cbn [orb]. reflexivity.
  - replace (Rpower M (/ B2R g)) with (exp (ln M / B2R g)) by (unfold Rpower; f_equal; unfold Rdiv; ring).
    replace (u * Rabs (ln M) + 4 * r + 8 * u) with (u * Rabs (ln M) + 2 * (2 * r + 4 * u)) by ring. exact NX.
Qed.

(** The S curve. *)
Lemma one_minus_log p V t : near p V (t * V) -> 0 <= V -> 0 <= t <= / 8 -> 0 < 1 - V -> Rabs (ln (1 - V)) <= 600 ->
  let r := (2 * t + 2 * u) * strain 1 (- V) in r <= / 4 ->
  positive (Bminus mode_NE (f64_cst L1) p) /\ Rabs (ln (B2R (Bminus mode_NE (f64_cst L1) p)) - ln (1 - V)) <= 2 * r.
Proof.
  intros N V0 T D0 LD r R4. destruct cst1 as (E1 & F1). pose proof (from_log p (f64_cst L1) V t N F1 V0 T) as H. cbv zeta in H. rewrite E1 in H. now apply H.
Qed.
Lemma type108_near g x : finite g -> B2R (f64_cst Ltol) <= B2R g <= 10000 -> finite x ->
  let D := 1 - B2R x in let t := k + u * (Rabs (ln D) + 8) / B2R g in let V := Rpower D (/ B2R g) in let N := 1 - V in
  let r := (2 * relative t + 2 * u) * strain 1 (- V) in
  0 < D -> Rabs (ln D) <= 600 -> Rabs (ln D) <= 600 * B2R g -> t <= / 10 -> 0 < N -> Rabs (ln N) <= 600 -> Rabs (ln N) <= 600 * B2R g -> r <= / 4 -> 2 * r <= B2R g ->
  exists y, eval_parametric O 108 [g] x = Some y /\
    near y (Rpower N (/ B2R g)) (relative (k + (u * Rabs (ln N) + 4 * r) / B2R g) * Rpower N (/ B2R g)).
Proof.
  intros G TG X D t V N r D0 LD LD' T1 N0 LN LN' R4 RG. pose proof u_pos as U. pose proof tol64_small as TS. destruct cst1 as (E1 & F1).
  assert (PG : positive g) by (split; [exact G|lra]). pose proof (Rinv_0_lt_compat _ (proj2 PG)) as I0.
  destruct (sub_log (f64_cst L1) x F1 X) as (PD & ED); [rewrite E1; exact D0|rewrite E1; exact LD|]. rewrite E1 in ED. fold D in ED.
  assert (T4 : 0 <= 4 * u <= B2R g).
  { destruct cst_tol as (ET & _). assert (/ 20000 <= B2R (f64_cst Ltol)) by (rewrite ET; lra).
    assert (u <= / 100000). { unfold ulp_half. change (2 ^ 53)%Z with 9007199254740992%Z. apply Rinv_le_contravar; lra. } lra. }
  destruct (root_near pow k AP KS g _ (ln D) (4 * u) G TG PD ED T4 LD') as (_ & NV & _ & _ & t0).
  replace (k + (u * Rabs (ln D) + 2 * (4 * u)) / B2R g) with t in NV, t0 by (unfold t, Rdiv; ring).
  replace (exp (ln D / B2R g)) with V in NV by (unfold V, Rpower; f_equal; unfold Rdiv; ring).
  assert (V0 : 0 < V) by apply exp_pos. pose proof (rel_small t (conj t0 T1)) as RT.
  destruct (one_minus_log _ V (relative t) NV ltac:(lra) RT N0 LN R4) as (PN & EN). fold N r in EN.
  assert (r0 : 0 <= r).
  { assert (0 <= 2 * r); [|lra]. eapply Rle_trans; [apply Rabs_pos|exact EN]. }
  destruct (root_near pow k AP KS g _ (ln N) (2 * r) G TG PN EN ltac:(lra) LN') as (_ & NX & _).
  eexists. split.
  - ev. rewrite tol_not_ltb by (assumption || lra). reflexivity.
  - replace (Rpower N (/ B2R g)) with (exp (ln N / B2R g)) by (unfold Rpower; f_equal; unfold Rdiv; ring).
    replace (u * Rabs (ln N) + 4 * r) with (u * Rabs (ln N) + 2 * (2 * r)) by ring. exact NX.
Qed.
Lemma type_m108_near g y : finite g -> positive y ->
  let V := Rpower (B2R y) (B2R g) in let N := 1 - V in let r := (2 * relative k + 2 * u) * strain 1 (- V) in let W := Rpower N (B2R g) in
  let t := k + 2 * r * Rabs (B2R g) in
  Rabs (B2R g * ln (B2R y)) <= 600 -> 0 < N -> Rabs (ln N) <= 600 -> Rabs (B2R g * ln N) <= 600 -> r <= / 4 -> t <= 1 ->
  exists x, eval_parametric O (-108) [g] y = Some x /\ near x (1 - W) ((2 * relative t + 2 * u) * (1 + W)).
Proof.
  intros G PY V N r W t LY N0 LN LGN R4 T1. pose proof u_pos as U. destruct cst1 as (E1 & F1).
  destruct (AP y g PY G ltac:(lra)) as (PV & EV). pose proof (rel_near _ _ _ PV EV) as NV. change (exp (B2R g * ln (B2R y))) with V in NV.
  assert (V0 : 0 < V) by apply exp_pos.
  destruct (one_minus_log _ V (relative k) NV ltac:(lra) (rel_small k ltac:(lra)) N0 LN R4) as (PN & EN). fold N r in EN.
  assert (r0 : 0 <= r).
  { assert (0 <= 2 * r); [|lra]. eapply Rle_trans; [apply Rabs_pos|exact EN]. }
  destruct (power_log pow k AP _ g N (2 * r) PN G EN LGN) as (PW & EW); [unfold t in T1; lra|].
  assert (EW' : Rabs (ln (B2R (pow (Bminus mode_NE (f64_cst L1) (pow y g)) g)) - B2R g * ln N) <= t) by (unfold t; lra).
  pose proof (rel_near _ _ _ PW EW') as NW. change (exp (B2R g * ln N)) with W in NW. assert (W0 : 0 < W) by apply exp_pos.
  destruct (power_size N (B2R g) LGN) as (WL & WU). fold W in WL, WU.
  assert (t0 : 0 <= t) by (eapply Rle_trans; [apply Rabs_pos|exact EW']).
  assert (RT : 0 <= relative t <= 3) by (split; [now apply relative_pos|now apply relative_1]).
  eexists. split; [ev; reflexivity|].
  pose proof le_top as LT. pose proof eta_pos as EP.
  assert (H1 : 1 <= bpow radix2 900) by (change 1 with (bpow radix2 0); apply bpow_le; lia).
  assert (A1 : Rabs (1 - W) <= 1 + W) by (apply Rabs_le; lra).
  assert (tW : 0 <= relative t * W <= 3 * W) by (split; [apply Rmult_le_pos; lra|apply Rmult_le_compat_r; lra]).
  pose proof (near_minus _ _ _ _ _ _ (near_self _ F1) NW) as M. rewrite E1 in M. eapply near_weaken; [apply M; lra|].
  assert (E8 : 8 * eta <= u * 1) by (apply eta_8; change 1 with (bpow radix2 0); apply bpow_le; lia).
  assert (u * (Rabs (1 - W) + (0 + relative t * W)) <= u * (1 + W) + / 1000 * (relative t * W)).
  { assert (u * (relative t * W) <= / 1000 * (relative t * W)) by (apply Rmult_le_compat_r; lra).
    assert (u * Rabs (1 - W) <= u * (1 + W)) by (apply Rmult_le_compat_l; lra). lra. }
  assert (0 <= u * W) by (apply Rmult_le_pos; lra). lra.
Qed.

Context (kl : R) (AL : accurate_log kl lg) (KL : 0 <= kl <= / 100).
Lemma type_m8_near a b c d e y : finite a -> B2R (f64_cst Ltol) <= B2R a -> positive b -> B2R b <> 1 -> finite c -> B2R (f64_cst Ltol) <= Rabs (B2R c) ->
  finite d -> Rabs (B2R d) <= bpow radix2 800 -> finite e -> finite y ->
  let D := B2R y - B2R e in let M := D / B2R a in let q := log_10 M / log_10 (B2R b) in
  let w := 2 * (2 * kl * Rabs (log_10 M) + 8 * u) / Rabs (log_10 (B2R b)) + u * Rabs q in
  0 < D -> Rabs (ln D) <= 600 -> Rabs (ln M) <= 600 ->
  exists x, eval_parametric O (-8) [a; b; c; d; e] y = Some x /\
    near x ((q - B2R d) / B2R c) ((3 * w + 4 * u * (Rabs q + Rabs (B2R d))) / Rabs (B2R c) + bpow radix2 (-1054)).
Proof.
  intros A TA PB B1 C TC D D8 E Y DD M q w D0 LD LM. pose proof u_pos as U. pose proof tol64_small as TS. pose proof eta_pos as EP.
  assert (PA : positive a) by (split; [exact A|lra]).
  destruct (sub_log y e Y E D0 LD) as (PD & ED). fold DD in ED.
  assert (M0 : 0 < M) by (apply Rmult_lt_0_compat; [exact D0|apply Rinv_0_lt_compat, PA]).
  destruct (div_log _ a DD (4 * u) PD PA D0 ED LM ltac:(lra)) as (PM & EM). fold M in EM.
  set (m := Bdiv mode_NE (Bminus mode_NE y e) a) in *.
  pose proof (log10_close (B2R m) M (4 * u) ltac:(lra)) as EL. pose proof (log10_size M LM) as SL.
  destruct (AL m PM) as (FL & NL). destruct (AL b PB) as (FB & NB).
  set (LA := log_10 M) in *. set (LB := log_10 (B2R b)) in *. set (l := lg m) in *. set (lb := lg b) in *.
  assert (NLL : Rabs (B2R l - LA) <= kl * Rabs LA + 8 * u).
  { replace (B2R l - LA) with ((B2R l - log_10 (B2R m)) + (log_10 (B2R m) - LA)) by ring. eapply Rle_trans; [apply Rabs_triang|].
    assert (Rabs (log_10 (B2R m)) <= Rabs LA + 4 * u).
    { replace (log_10 (B2R m)) with ((log_10 (B2R m) - LA) + LA) by ring. eapply Rle_trans; [apply Rabs_triang|]. lra. }
    assert (kl * Rabs (log_10 (B2R m)) <= kl * (Rabs LA + 4 * u)) by (apply Rmult_le_compat_l; lra).
    assert (kl * (4 * u) <= / 100 * (4 * u)) by (apply Rmult_le_compat_r; lra). lra. }
  assert (LB0 : bpow radix2 (-56) <= Rabs LB).
  { destruct (ln_off_one (B2R b) (fin_fmt b) (proj2 PB)) as [Q|Q]; [contradiction|]. pose proof ln10_low as LT10. pose proof ln10_up as U10.
    unfold LB, log_10, Rdiv. rewrite Rabs_mult, (Rabs_pos_eq (/ ln 10)) by (left; apply Rinv_0_lt_compat; lra).
    change (bpow radix2 (-56)) with (bpow radix2 (-54 + -2)). rewrite bpow_plus. change (bpow radix2 (-2)) with (/ 4).
    apply Rmult_le_compat; [apply bpow_ge_0|lra|exact Q|apply Rinv_le_contravar; lra]. }
  pose proof (bpow_gt_0 radix2 (-56)) as B56. set (z := Rabs LB) in *. assert (Z0 : 0 < z) by lra. pose proof (Rinv_0_lt_compat _ Z0) as I0.
  assert (NLB : LB <> 0) by (intros H; unfold z in Z0; rewrite H, Rabs_R0 in Z0; lra).
  assert (lbz : 99 / 100 * z <= Rabs (B2R lb)).
  { assert (z <= Rabs (B2R lb) + Rabs (B2R lb - LB)).
    { unfold z. replace LB with (B2R lb + - (B2R lb - LB)) at 1 by ring. eapply Rle_trans; [apply Rabs_triang|]. rewrite Rabs_Ropp. lra. }
    assert (kl * z <= / 100 * z) by (apply Rmult_le_compat_r; lra). lra. }
  assert (Nlb : B2R lb <> 0) by (intros H; rewrite H, Rabs_R0 in lbz; lra).
  pose proof (Rabs_pos LA) as LA0. set (x1 := 2 * (2 * kl * Rabs LA + 8 * u) / z) in *.
  assert (X0 : 0 <= x1) by (unfold x1; apply Rmult_le_pos; [|lra]; assert (0 <= kl * Rabs LA) by (apply Rmult_le_pos; lra); lra).
  assert (QE : Rabs (B2R l / B2R lb - q) <= x1).
  { unfold q. fold LA LB. replace (B2R l / B2R lb - LA / LB) with (((B2R l - LA) - LA * (B2R lb - LB) / LB) * / B2R lb) by (field; split; assumption).
    rewrite Rabs_mult, Rabs_inv. assert (IL : / Rabs (B2R lb) <= / (99 / 100 * z)) by (apply Rinv_le_contravar; lra).
    apply Rle_trans with ((2 * kl * Rabs LA + 8 * u) * / (99 / 100 * z)).
    - apply Rmult_le_compat; try apply Rabs_pos; [left; apply Rinv_0_lt_compat; lra| |exact IL].
      unfold Rminus at 1. eapply Rle_trans; [apply Rabs_triang|]. rewrite Rabs_Ropp.
      assert (Rabs (LA * (B2R lb - LB) / LB) <= kl * Rabs LA); [|lra].
      unfold Rdiv. rewrite !Rabs_mult, Rabs_inv. fold z. apply Rle_trans with (Rabs LA * (kl * z) * / z).
      + apply Rmult_le_compat_r; [lra|]. apply Rmult_le_compat_l; [exact LA0|exact NB].
      + right. field. lra.
    - unfold x1, Rdiv. rewrite Rinv_mult. assert (0 <= kl * Rabs LA) by (apply Rmult_le_pos; lra).
      assert (0 <= (2 * kl * Rabs LA + 8 * u) * / z) by (apply Rmult_le_pos; lra). lra. }
  assert (IZ : / z <= bpow radix2 56).
  { change (bpow radix2 56) with (bpow radix2 (- (-56))). rewrite bpow_opp. now apply Rinv_le_contravar. }
  assert (H800 : bpow radix2 56 * 1024 <= bpow radix2 800) by (change 1024 with (bpow radix2 10); rewrite <- bpow_plus; apply bpow_le; lia).
  assert (H9 : bpow radix2 800 * 16 <= bpow radix2 900) by (change 16 with (bpow radix2 4); rewrite <- bpow_plus; apply bpow_le; lia).
  assert (H10 : bpow radix2 900 <= huge) by (apply bpow_le; lia).
  assert (H1 : 1 <= bpow radix2 800) by (change 1 with (bpow radix2 0); apply bpow_le; lia).
  assert (E2 : eta <= 1) by (change 1 with (bpow radix2 0); apply bpow_le; lia).
  assert (Q8 : Rabs q <= bpow radix2 800).
  { unfold q, Rdiv. fold LA LB. rewrite Rabs_mult, Rabs_inv. fold z. apply Rle_trans with (300 * bpow radix2 56); [apply Rmult_le_compat; lra|lra]. }
  assert (X8 : x1 <= bpow radix2 800).
  { unfold x1, Rdiv. assert (kl * Rabs LA <= / 100 * 300) by (apply Rmult_le_compat; lra).
    apply Rle_trans with (300 * bpow radix2 56); [apply Rmult_le_compat; try lra|lra]. assert (0 <= kl * Rabs LA) by (apply Rmult_le_pos; lra). lra. }
  pose proof (Rabs_pos q) as q0.
  assert (NQ : near (Bdiv mode_NE l lb) q (11 / 10 * x1 + u * Rabs q + eta)).
  { eapply near_weaken; [apply (near_op _ q (B2R l / B2R lb) x1 (ov_div l lb FL FB Nlb) QE); lra|].
    assert (u * x1 <= / 1000 * x1) by (apply Rmult_le_compat_r; lra). lra. }
  assert (uq : 0 <= u * Rabs q <= / 1000 * Rabs q) by (split; [apply Rmult_le_pos|apply Rmult_le_compat_r]; lra).
  assert (TCz : 0 < Rabs (B2R c)) by lra. pose proof (Rinv_0_lt_compat _ TCz) as IC.
  assert (ICU : / Rabs (B2R c) <= 20000). { rewrite <- (Rinv_inv 20000). apply Rinv_le_contravar; [lra|]. destruct cst_tol as (ET & _). rewrite ET in TC. lra. }
  eexists. split.
  - ev. rewrite pos_not_ltb by exact PD. rewrite tol_not_ltb, tc_false by (assumption || lra). cbn [orb]. reflexivity.
  - eapply near_weaken; [apply (sub_div_near _ _ _ _ _ NQ C D); try assumption; lra|].
    unfold Rdiv. rewrite Rmult_plus_distr_r.
    replace ((3 * w + 4 * u * (Rabs q + Rabs (B2R d))) * / Rabs (B2R c)) with (3 * (w * / Rabs (B2R c)) + 4 * u * (Rabs q + Rabs (B2R d)) * / Rabs (B2R c)) by ring.
    assert (W2 : 2 * (11 / 10 * x1 + u * Rabs q + eta) * / Rabs (B2R c) <= 3 * (w * / Rabs (B2R c)) + 2 * (eta * / Rabs (B2R c))).
    { assert (WW : w = x1 + u * Rabs q) by reflexivity. rewrite WW.
      replace (2 * (11 / 10 * x1 + u * Rabs q + eta) * / Rabs (B2R c)) with ((11 / 5 * x1 + 2 * (u * Rabs q)) * / Rabs (B2R c) + 2 * (eta * / Rabs (B2R c))) by (field; lra).
      apply Rplus_le_compat_r. rewrite <- (Rmult_assoc 3). apply Rmult_le_compat_r; lra. }
    assert (EC : eta * / Rabs (B2R c) <= eta * 20000) by (apply Rmult_le_compat_l; lra).
    assert (B1055 : bpow radix2 (-1054) = 2 * bpow radix2 (-1055)) by (change (-1054)%Z with (1 + -1055)%Z; now rewrite bpow_plus).
    assert (EE : 40000 * eta <= bpow radix2 (-1055)).
    { change (bpow radix2 (-1055)) with (bpow radix2 (20 + -1075)). rewrite bpow_plus. change (bpow radix2 20) with 1048576. lra. }
    lra.
Qed.
End More.
