(** Accuracy of types 7 and 8 (C96); a correctly rounded log10. *)
From Coq Require Import ZArith Reals Lia Lra Psatz.
From Flocq Require Import Core Relative IEEE754.BinarySingleNaN.
From Verif Require Import M_Base M_F64 M_Curve M_CurveF64 S_F64 S_Curve S_Accuracy P_S15 P_F64 P_Curve3 P_CurveErr P_Ideal P_CurveErr2 P_CurveErr3 P_CurveErr4 P_Acc P_Acc2.
Open Scope R_scope.

Lemma ln10_low : 2 <= ln 10.
Proof.
  pose proof ln2_lower. assert (E : ln 8 = 3 * ln 2) by (change 8 with (bpow radix2 3); now rewrite ln_bpow).
  assert (ln 8 < ln 10) by (apply ln_increasing; lra). lra.
Qed.
Lemma log10_close x y t : Rabs (ln x - ln y) <= 2 * t -> Rabs (log_10 x - log_10 y) <= t.
Proof.
  intros H. pose proof ln10_low. unfold log_10. replace (ln x / ln 10 - ln y / ln 10) with ((ln x - ln y) * / ln 10) by (field; lra).
  rewrite Rabs_mult, (Rabs_pos_eq (/ ln 10)) by (left; apply Rinv_0_lt_compat; lra).
  apply Rmult_le_reg_r with (ln 10); [lra|]. rewrite Rmult_assoc, Rinv_l by lra. pose proof (Rabs_pos (ln x - ln y)). nra.
Qed.
Lemma log10_size V : Rabs (ln V) <= 600 -> Rabs (log_10 V) <= 300.
Proof.
  intros H. pose proof ln10_low. unfold log_10, Rdiv. rewrite Rabs_mult, (Rabs_pos_eq (/ ln 10)) by (left; apply Rinv_0_lt_compat; lra).
  apply Rmult_le_reg_r with (ln 10); [lra|]. rewrite Rmult_assoc, Rinv_l by lra. lra.
Qed.
(** a p + c from a power. *)
Lemma scaled_near a c p V t : near p V (t * V) -> finite a -> finite c -> 0 < V -> V <= bpow radix2 900 -> 0 <= t <= 3 ->
  let Q := Rabs (B2R a * V) + Rabs (B2R c) in Q <= bpow radix2 980 ->
  near (Bplus mode_NE (Bmult mode_NE a p) c) (B2R a * V + B2R c) ((2 * t + 2 * u) * Rabs (B2R a * V) + u * Rabs (B2R a * V + B2R c) + 3 * eta).
Proof.
  intros N A C V0 VU T Q H. pose proof u_pos as U. pose proof eta_pos as E.
  assert (HH : bpow radix2 980 * 16 <= huge) by (change 16 with (bpow radix2 4); rewrite <- bpow_plus; apply bpow_le; lia).
  assert (E1 : eta <= 1) by (change 1 with (bpow radix2 0); apply bpow_le; lia).
  assert (H1 : 1 <= bpow radix2 980) by (change 1 with (bpow radix2 0); apply bpow_le; lia).
  set (z := Rabs (B2R a * V)) in *. assert (Z0 : 0 <= z) by apply Rabs_pos. pose proof (Rabs_pos (B2R c)) as C0.
  assert (AZ : Rabs (B2R a) * (t * V) = t * z) by (unfold z; rewrite Rabs_mult, (Rabs_pos_eq V) by lra; ring).
  assert (tz : 0 <= t * z <= 3 * z) by (split; [apply Rmult_le_pos; lra|apply Rmult_le_compat_r; lra]).
  pose proof (Rabs_triang (B2R a * V) (B2R c)) as TR. fold z in TR.
  pose proof (near_mult a p V (t * V) A N) as M. rewrite AZ in M. fold z in M.
  specialize (M ltac:(unfold Q in H; lra)).
  assert (uz : u * (z + t * z) <= / 1000 * (4 * z)) by (apply Rmult_le_compat; lra).
  eapply near_weaken; [apply (near_plus _ _ _ _ _ _ M (near_self c C)); unfold Q in H; lra|].
  assert (u * (t * z) <= / 1000 * (t * z)) by (apply Rmult_le_compat_r; lra).
  assert (u * (u * (z + t * z)) <= / 1000 * (u * (z + t * z))) by (apply Rmult_le_compat_r; [apply Rmult_le_pos|]; lra).
  assert (u * eta <= / 1000 * eta) by (apply Rmult_le_compat_r; lra).
  assert (0 <= u * z) by (apply Rmult_le_pos; lra). lra.
Qed.

Section Seven.
Context (pow : f64 -> f64 -> f64) (lg ex : f64 -> f64) (k kl : R) (AP : accurate_pow k pow) (KS : 0 <= k <= / 100).
Notation O := (f64_ops pow lg ex).
Lemma relk : 0 <= relative k <= / 80.
Proof. split; [apply relative_pos; lra|]. unfold relative. pose proof (exp_small k ltac:(lra)). lra. Qed.

Context (AL : accurate_log kl lg) (KL : 0 <= kl <= / 100).
Lemma type7_near g a b c d x : finite g -> finite a -> finite b -> finite c -> finite d -> positive x ->
  let W := Rpower (B2R x) (B2R g) in let V := B2R b * W + B2R c in let s := strain (B2R b * W) (B2R c) in
  let L := log_10 V in let p := (2 * relative k + 4 * u) * s in
  Rabs (B2R g * ln (B2R x)) <= 600 -> 0 < V -> Rabs (ln V) <= 600 -> p <= / 4 -> Rabs (B2R a) <= bpow radix2 800 -> Rabs (B2R d) <= bpow radix2 800 ->
  exists y, eval_parametric O 7 [g; a; b; c; d] x = Some y /\
    near y (B2R a * L + B2R d) (Rabs (B2R a) * (2 * (kl * Rabs L + 2 * p) + 2 * u * Rabs L) + u * Rabs (B2R a * L + B2R d) + tiny).
Proof.
  intros G A B C D X W V s L p GX V0 LV PS A8 D8. pose proof u_pos as U. pose proof eta_pos as E. pose proof relk as RK.
  destruct (AP x g X G ltac:(lra)) as (PW & EW). pose proof (rel_near _ _ _ PW EW) as NW. change (exp (B2R g * ln (B2R x))) with W in NW.
  destruct (power_size (B2R x) (B2R g) GX) as (WL & WU). fold W in WL, WU. assert (W0 : 0 < W) by apply exp_pos.
  destruct (huge_600 V V0 LV) as (VL & VU). assert (NV : B2R b * W + B2R c <> 0) by (fold V; lra).
  pose proof (strain_ge_1 _ _ NV) as S1. pose proof (strain_mult _ _ NV) as SM. fold s V in S1, SM. rewrite (Rabs_pos_eq V) in SM by lra.
  assert (us : u * s <= / 16).
  { assert (4 * u * s <= p) by (unfold p; apply Rmult_le_compat_r; lra). lra. }
  assert (S50 : s <= bpow radix2 50).
  { assert (E2 : u * bpow radix2 53 = 1) by (unfold ulp_half; change (bpow radix2 53) with (IZR (2 ^ 53)); field; apply IZR_neq; lia).
    assert (E' : bpow radix2 53 = 8 * bpow radix2 50) by (change 53%Z with (3 + 50)%Z; now rewrite bpow_plus).
    apply Rmult_le_reg_l with u; [lra|]. rewrite E' in E2. lra. }
  destruct (scaled_near b c (pow x g) W (relative k) NW B C W0 WU ltac:(lra)) as (FE & EE).
  { rewrite <- SM. apply Rle_trans with (bpow radix2 50 * bpow radix2 900); [apply Rmult_le_compat; lra|]. rewrite <- bpow_plus. apply bpow_le. lia. }
  fold V in EE. rewrite (Rabs_pos_eq V) in EE by lra. set (e := Bplus mode_NE (Bmult mode_NE b (pow x g)) c) in *.
  assert (EP : 8 * eta <= u * V) by (apply eta_8; eapply Rle_trans; [|exact VL]; apply bpow_le; lia).
  assert (uPs : u * V <= u * s * V) by (apply Rmult_le_compat_r; nra).
  assert (BW : (2 * relative k + 2 * u) * Rabs (B2R b * W) <= (2 * relative k + 2 * u) * (s * V)).
  { apply Rmult_le_compat_l; [lra|]. rewrite SM. pose proof (Rabs_pos (B2R c)). lra. }
  assert (RE : Rabs (B2R e - V) <= p * V) by (eapply Rle_trans; [exact EE|]; unfold p; lra).
  destruct (ln_close (B2R e) V p V0 ltac:(split; [unfold p; apply Rmult_le_pos; lra|lra]) RE) as (E0 & LE).
  pose proof (log10_close _ _ _ LE) as LL. fold L in LL.
  assert (PE : positive e) by now split. destruct (AL e PE) as (FL & NL). set (l := lg e) in *.
  pose proof (log10_size V LV) as LB. fold L in LB. pose proof (Rabs_pos L) as L0.
  assert (P0 : 0 <= p) by (eapply Rle_trans; [apply Rabs_pos|exact LL]).
  assert (NLL : Rabs (B2R l - L) <= kl * Rabs L + 2 * p).
  { replace (B2R l - L) with ((B2R l - log_10 (B2R e)) + (log_10 (B2R e) - L)) by ring. eapply Rle_trans; [apply Rabs_triang|].
    assert (Rabs (log_10 (B2R e)) <= Rabs L + p).
    { replace (log_10 (B2R e)) with ((log_10 (B2R e) - L) + L) by ring. eapply Rle_trans; [apply Rabs_triang|]. lra. }
    assert (kl * Rabs (log_10 (B2R e)) <= kl * (Rabs L + p)) by (apply Rmult_le_compat_l; lra). nra. }
  set (t1 := kl * Rabs L + 2 * p) in *. assert (T1 : 0 <= t1 <= 4). { unfold t1. nra. }
  assert (AH : 0 <= Rabs (B2R a)) by apply Rabs_pos. set (z := Rabs (B2R a)) in *.
  assert (H8 : bpow radix2 800 * 65536 <= huge) by (change 65536 with (bpow radix2 16); rewrite <- bpow_plus; apply bpow_le; lia).
  assert (E1 : eta <= 1) by (change 1 with (bpow radix2 0); apply bpow_le; lia).
  assert (H1 : 1 <= bpow radix2 800) by (change 1 with (bpow radix2 0); apply bpow_le; lia).
  assert (AL' : Rabs (B2R a * L) = z * Rabs L) by apply Rabs_mult.
  assert (zL : 0 <= z * Rabs L <= bpow radix2 800 * 300) by (split; [apply Rmult_le_pos; lra|apply Rmult_le_compat; lra]).
  assert (zt : 0 <= z * t1 <= bpow radix2 800 * 4) by (split; [apply Rmult_le_pos; lra|apply Rmult_le_compat; lra]).
  pose proof (near_mult a l L t1 A (conj FL NLL)) as M. fold z in M. rewrite AL' in M. specialize (M ltac:(lra)).
  pose proof (Rabs_triang (B2R a * L) (B2R d)) as TR. rewrite AL' in TR.
  assert (uz : u * (z * Rabs L + z * t1) <= / 1000 * (z * Rabs L + z * t1)) by (apply Rmult_le_compat_r; lra).
  exists (Bplus mode_NE (Bmult mode_NE a l) d). split.
  - ev. fold e. replace (f64_geb zero e) with false; [reflexivity|]. symmetry. apply geb_below; [reflexivity|exact FE|exact E0].
  - eapply near_weaken; [apply (near_plus _ _ _ _ _ _ M (near_self d D)); lra|]. rewrite tiny_eta.
    assert (u * (z * t1) <= / 1000 * (z * t1)) by (apply Rmult_le_compat_r; lra).
    assert (u * (u * (z * Rabs L + z * t1)) <= / 1000 * (u * (z * Rabs L + z * t1))) by (apply Rmult_le_compat_r; [apply Rmult_le_pos|]; lra).
    assert (u * eta <= / 1000 * eta) by (apply Rmult_le_compat_r; lra).
    assert (0 <= u * (z * Rabs L)) by (apply Rmult_le_pos; lra). lra.
Qed.
Lemma type8_near a b c d e x : finite a -> positive b -> finite c -> finite d -> finite e -> finite x ->
  let Q := Rabs (B2R c * B2R x) + Rabs (B2R d) in let W := B2R c * B2R x + B2R d in let V := Rpower (B2R b) W in
  let q := Rabs (ln (B2R b)) * (3 * u * Q + tiny) in
  Q <= bpow radix2 900 -> Rabs (W * ln (B2R b)) <= 600 -> q <= 1 -> Rabs (B2R a * V) + Rabs (B2R e) <= bpow radix2 900 ->
  exists y, eval_parametric O 8 [a; b; c; d; e] x = Some y /\
    near y (B2R a * V + B2R e) ((2 * relative (k + q) + 2 * u) * Rabs (B2R a * V) + u * Rabs (B2R a * V + B2R e) + tiny).
Proof.
  intros A PB C D E X Q W V q HQ LW HQ1 HV. pose proof u_pos as U. pose proof eta_pos as EP.
  destruct (line_near c x d C X D) as (FW & NW); [eapply Rle_trans; [exact HQ|apply bpow_le; lia]|]. fold Q W in NW.
  set (w := Bplus mode_NE (Bmult mode_NE c x) d) in *.
  assert (NQ : Rabs (B2R w * ln (B2R b) - W * ln (B2R b)) <= q).
  { rewrite <- Rmult_minus_distr_r, Rabs_mult, Rmult_comm. unfold q. apply Rmult_le_compat_l; [apply Rabs_pos|]. rewrite tiny_eta. lra. }
  destruct (AP b w PB FW) as (PY & EY).
  { replace (B2R w * ln (B2R b)) with ((B2R w * ln (B2R b) - W * ln (B2R b)) + W * ln (B2R b)) by ring. eapply Rle_trans; [apply Rabs_triang|]. lra. }
  assert (EY' : Rabs (ln (B2R (pow b w)) - W * ln (B2R b)) <= k + q).
  { replace (ln (B2R (pow b w)) - W * ln (B2R b)) with ((ln (B2R (pow b w)) - B2R w * ln (B2R b)) + (B2R w * ln (B2R b) - W * ln (B2R b))) by ring.
    eapply Rle_trans; [apply Rabs_triang|]. lra. }
  pose proof (rel_near _ _ _ PY EY') as NV. change (exp (W * ln (B2R b))) with V in NV.
  destruct (power_size (B2R b) W LW) as (VL & VU). fold V in VL, VU.
  assert (q0 : 0 <= q) by (eapply Rle_trans; [apply Rabs_pos|exact NQ]).
  assert (RT : 0 <= relative (k + q) <= 3).
  { split; [apply relative_pos; lra|]. unfold relative. assert (exp (k + q) <= 4); [|lra].
    apply Rle_trans with (exp (INR 4 * (/ 4 + / 400))).
    - destruct (Rle_lt_or_eq_dec (k + q) (1 + / 100)) as [H|H]; [lra|left; apply exp_increasing; cbn [INR]; lra|right; f_equal; cbn [INR]; lra].
    - rewrite exp_pow. apply Rle_trans with ((1414 / 1000) ^ 4); [|lra]. apply pow_incr. split; [left; apply exp_pos|].
      eapply Rle_trans; [apply exp_upper; lra|]. apply Rle_trans with (/ (1000 / 1414)); [apply Rinv_le_contravar; lra|]. lra. }
  exists (Bplus mode_NE (Bmult mode_NE a (pow b w)) e). split.
  - ev. reflexivity.
  - eapply near_weaken; [apply (scaled_near a e (pow b w) V _ NV A E); try assumption; try apply exp_pos|].
    + eapply Rle_trans; [exact HV|]. apply bpow_le. lia.
    + rewrite tiny_eta. lra.
Qed.
End Seven.
