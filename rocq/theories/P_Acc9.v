(** Accuracy of the sigmoid (C96). *)
From Coq Require Import ZArith Reals Lia Lra Psatz.
From Flocq Require Import Core Relative IEEE754.BinarySingleNaN.
From Verif Require Import M_Base M_F64 M_Curve M_CurveF64 S_F64 S_Curve S_Accuracy P_S15 P_F64 P_Curve P_Curve2 P_Curve3 P_CurveErr P_Ideal P_CurveErr2 P_CurveErr3 P_CurveErr4 P_Acc P_Acc2 P_Acc3 P_Acc4 P_Acc5 P_Acc6 P_Acc7.
Open Scope R_scope.

(** 1 / (1 + A) when the logarithm of A is off. *)
Lemma logistic_close A B d : 0 < A -> 0 < B -> Rabs (ln A - ln B) <= d -> Rabs (/ (1 + A) - / (1 + B)) <= relative d / 4.
Proof.
  assert (Half : forall A B, 0 < A -> A <= B -> forall d, ln B - ln A <= d -> Rabs (/ (1 + A) - / (1 + B)) <= relative d / 4).
  { clear. intros A B A0 AB d L. assert (D0 : 0 <= d).
    { assert (ln A <= ln B) by (destruct AB as [AB| ->]; [left; now apply ln_increasing|right; reflexivity]). lra. }
    replace (/ (1 + A) - / (1 + B)) with ((B - A) * / ((1 + A) * (1 + B))) by (field; lra).
    pose proof (rel_of_ln A B d A0 ltac:(lra)) as R. rewrite (Rabs_pos_eq (ln B - ln A)) in R by (assert (ln A <= ln B) by (destruct AB as [AB| ->]; [left; now apply ln_increasing|right; reflexivity]); lra).
    specialize (R L). rewrite Rabs_pos_eq in R by lra. fold (relative d) in R. pose proof (relative_pos d D0) as RP.
    assert (P : 0 < (1 + A) * (1 + B)) by nra. rewrite Rabs_pos_eq by (apply Rmult_le_pos; [lra|left; now apply Rinv_0_lt_compat]).
    apply Rmult_le_reg_r with ((1 + A) * (1 + B)); [exact P|]. rewrite Rmult_assoc, Rinv_l by lra. rewrite Rmult_1_r.
    eapply Rle_trans; [exact R|]. unfold Rdiv. rewrite Rmult_assoc. apply Rmult_le_compat_l; [exact RP|].
    assert (A * 4 <= (1 + A) * (1 + A)) by (pose proof (Rle_0_sqr (1 - A)) as Q; unfold Rsqr in Q; lra).
    assert ((1 + A) * (1 + A) <= (1 + A) * (1 + B)) by (apply Rmult_le_compat_l; lra). lra. }
  intros A0 B0 L. apply Rabs_le_inv in L. destruct (Rle_dec A B) as [H|H].
  - apply (Half A B A0 H); lra.
  - rewrite Rabs_minus_sym. apply (Half B A B0); lra.
Qed.
Lemma opp_val (x : f64) : finite x -> finite (Bopp x) /\ B2R (Bopp x) = - B2R x.
Proof. intros F. split; [unfold finite; now rewrite is_finite_Bopp|apply B2R_Bopp]. Qed.
Lemma eta_u : 0 < eta <= / 1000 * u.
Proof. split; [apply eta_pos|]. pose proof (eta_8 1 ltac:(change 1 with (bpow radix2 0); apply bpow_le; lia)). pose proof u_pos. pose proof tiny_eta. pose proof eta_pos.
  assert (T : tiny <= bpow radix2 (-70)) by (apply bpow_le; lia). assert (E : u = bpow radix2 17 * bpow radix2 (-70)) by (rewrite <- bpow_plus; unfold ulp_half; cbn; lra).
  change (bpow radix2 17) with 131072 in E. lra. Qed.

Lemma inv_below_1 P : 1 < P -> 0 < / P < 1.
Proof. intros H. split; [apply Rinv_0_lt_compat; lra|]. rewrite <- Rinv_1. apply Rinv_lt_contravar; lra. Qed.

Section Exp.
Context (pow : f64 -> f64 -> f64) (lg ex : f64 -> f64) (ke : R) (AE : accurate_exp ke ex) (K0 : 0 <= ke <= / 100).
Notation O := (f64_ops pow lg ex).
Lemma base_near k t T s : finite k -> Rabs (B2R k) <= 600 -> near t T s -> 0 <= s <= 4 * u -> Rabs T <= 1 ->
  ke + 8 * u * Rabs (B2R k) + tiny <= / 10 -> near (sigmoid_base O k t) (logistic (B2R k) T) (logistic_error ke (B2R k)).
Proof.
  intros FK K6 NT S4 T1 D1. pose proof u_pos as U. pose proof u_tiny as UT. pose proof eta_u as EU. pose proof tiny_eta as TE.
  destruct cst1 as (V1 & F1). destruct half_val as (VH & FH). set (K := B2R k) in *. pose proof (Rabs_pos K) as KP. pose proof (Rabs_pos T) as TP.
  assert (H1 : 1000 <= huge) by (apply Rle_trans with (bpow radix2 10); [change (bpow radix2 10) with 1024; lra|apply bpow_le; lia]).
  destruct (opp_val k FK) as (FO & VO). fold K in VO.
  (* - k t *)
  assert (KT : Rabs K * Rabs T <= Rabs K) by (assert (Rabs K * Rabs T <= Rabs K * 1) by (apply Rmult_le_compat_l; lra); lra).
  assert (KS : 0 <= Rabs K * s <= 4 * (u * Rabs K)) by (split; [apply Rmult_le_pos; lra|]; assert (Rabs K * s <= Rabs K * (4 * u)) by (apply Rmult_le_compat_l; lra); lra).
  assert (UK : 0 <= u * Rabs K <= / 1000000) by (split; [apply Rmult_le_pos; lra|]; assert (u * Rabs K <= / 1000000000 * 600) by (apply Rmult_le_compat; lra); lra).
  assert (UK2 : u * Rabs K <= / 1000 * Rabs K) by (apply Rmult_le_compat_r; lra).
  assert (M : near (Bmult mode_NE (Bopp k) t) (- K * T) (8 * u * Rabs K + tiny)).
  { pose proof (near_mult (Bopp k) t T s FO NT) as N. rewrite VO, Rabs_mult, Rabs_Ropp in N. eapply near_weaken; [apply N; lra|].
    assert (u * (Rabs K * Rabs T + Rabs K * s) <= u * (Rabs K * 2)) by (apply Rmult_le_compat_l; lra). lra. }
  destruct M as (FM & EM). set (m := Bmult mode_NE (Bopp k) t) in *.
  assert (MU : Rabs (B2R m) <= 601).
  { replace (B2R m) with ((B2R m - - K * T) + - K * T) by ring. eapply Rle_trans; [apply Rabs_triang|]. rewrite (Rabs_mult (- K)), Rabs_Ropp. lra. }
  (* its exponential *)
  destruct (AE m FM ltac:(lra)) as (PE & LE). destruct PE as (FE & E0). set (e := ex m) in *.
  set (d := ke + 8 * u * Rabs K + tiny) in *. assert (d0 : 0 <= d) by (unfold d; pose proof eta_pos; lra).
  assert (LD : Rabs (ln (B2R e) - - K * T) <= d).
  { replace (ln (B2R e) - - K * T) with ((ln (B2R e) - B2R m) + (B2R m - - K * T)) by ring. eapply Rle_trans; [apply Rabs_triang|]. unfold d. lra. }
  assert (EU9 : B2R e <= bpow radix2 900).
  { apply Rnot_lt_le. intros C. apply ln_increasing in C; [|apply bpow_gt_0]. rewrite ln_bpow in C. pose proof ln2_lower. apply Rabs_le_inv in LE. apply Rabs_le_inv in MU. lra. }
  pose proof (logistic_close (B2R e) (exp (- K * T)) d E0 (exp_pos _)) as LC. rewrite ln_exp in LC. specialize (LC LD).
  (* 1 + e, 1 / (1 + e) *)
  assert (H9 : bpow radix2 900 * 8 <= huge) by (change 8 with (bpow radix2 3); rewrite <- bpow_plus; apply bpow_le; lia).
  destruct (op_fin _ _ (ov_plus (f64_cst L1) e F1 FE)) as (FP & EP); [rewrite V1; rewrite Rabs_pos_eq; lra|]. rewrite V1 in EP. rewrite (Rabs_pos_eq (1 + B2R e)) in EP by lra.
  set (p := Bplus mode_NE (f64_cst L1) e) in *. set (P := 1 + B2R e) in *. assert (P1 : 1 <= P) by (unfold P; lra).
  assert (uP : u * P <= / 1000 * P) by (apply Rmult_le_compat_r; lra). assert (uP1 : u * 1 <= u * P) by (apply Rmult_le_compat_l; lra).
  apply Rabs_le_inv in EP. assert (PP : 99 / 100 <= B2R p) by lra.
  assert (Q1 : Rabs (/ B2R p - / P) <= 11 / 10 * u).
  { replace (/ B2R p - / P) with ((P - B2R p) * / (B2R p * P)) by (field; lra). rewrite Rabs_mult, (Rabs_pos_eq (/ _)) by (left; apply Rinv_0_lt_compat; apply Rmult_lt_0_compat; lra).
    apply Rmult_le_reg_r with (B2R p * P); [apply Rmult_lt_0_compat; lra|]. rewrite Rmult_assoc, Rinv_l by (apply Rgt_not_eq; apply Rmult_lt_0_compat; lra).
    assert (EA : Rabs (P - B2R p) <= 1001 / 1000 * (u * P)) by (apply Rabs_le; lra).
    assert (u * P * (99 / 100) <= u * P * B2R p) by (apply Rmult_le_compat_l; [apply Rmult_le_pos|]; lra). lra. }
  assert (IP : 0 < / B2R p <= 102 / 100).
  { split; [apply Rinv_0_lt_compat; lra|]. apply Rle_trans with (/ (99 / 100)); [apply Rinv_le_contravar; lra|lra]. }
  destruct (op_fin _ _ (ov_div (f64_cst L1) p F1 FP ltac:(lra))) as (FQ & EQ); [rewrite V1; unfold Rdiv; rewrite Rmult_1_l, Rabs_pos_eq by lra; lra|].
  rewrite V1 in EQ. unfold Rdiv in EQ. rewrite Rmult_1_l, (Rabs_pos_eq (/ B2R p)) in EQ by lra.
  set (q := Bdiv mode_NE (f64_cst L1) p) in *. set (R0 := / (1 + exp (- K * T))) in *. pose proof (relative_small d ltac:(unfold d in *; lra)) as RD.
  set (r := relative d) in *. assert (RU : r <= / 8) by (unfold d in *; lra).
  assert (uip : u * / B2R p <= 102 / 100 * u) by (assert (u * / B2R p <= u * (102 / 100)) by (apply Rmult_le_compat_l; lra); lra).
  assert (QN : near q R0 (r / 4 + 22 / 10 * u)).
  { split; [exact FQ|]. replace (B2R q - R0) with ((B2R q - / B2R p) + (/ B2R p - / P) + (/ P - R0)) by ring.
    eapply Rle_trans; [apply Rabs_triang|]. pose proof (Rabs_triang (B2R q - / B2R p) (/ B2R p - / P)) as TT. fold r in LC. fold P in LC. lra. }
  assert (RR : 0 < R0 < 1).
  { unfold R0. pose proof (exp_pos (- K * T)). split; [apply Rinv_0_lt_compat; lra|]. rewrite <- Rinv_1. apply Rinv_lt_contravar; lra. }
  change (sigmoid_base O k t) with (Bminus mode_NE q (f64_cst Lhalf)). replace (logistic K T) with (R0 - B2R (f64_cst Lhalf)) by (rewrite VH; unfold logistic, R0; lra).
  assert (RH : Rabs (R0 - B2R (f64_cst Lhalf)) <= / 2) by (rewrite VH; apply Rabs_le; lra).
  eapply near_weaken; [apply (near_minus _ _ _ _ _ _ QN (near_self _ FH)); lra|]. unfold logistic_error. fold d. fold r.
  assert (u * (Rabs (R0 - B2R (f64_cst Lhalf)) + (r / 4 + 22 / 10 * u + 0)) <= u * (/ 2 + / 10)) by (apply Rmult_le_compat_l; lra). lra.
Qed.
(** 0.5 / sigmoid_base k 1. *)
Lemma correction_near k : finite k -> Rabs (B2R k) <= 600 -> B2R k <> 0 ->
  ke + 8 * u * Rabs (B2R k) + tiny <= / 10 -> let r := sigmoid_strain ke (B2R k) in r <= / 8 -> let C := logistic (B2R k) 1 in
  let cor := Bdiv mode_NE (f64_cst Lhalf) (sigmoid_base O k (f64_cst L1)) in
  finite cor /\ Rabs (B2R cor - / 2 / C) <= (4 / 7 * r + 6 / 10 * u) * / Rabs C /\ Rabs (B2R cor) <= 6 / 10 * / Rabs C /\
  C <> 0 /\ 32 * u <= Rabs C <= / 2 /\ logistic_error ke (B2R k) = r * Rabs C /\ 0 <= r.
Proof.
  intros FK K6 NK D1 r R8 C. pose proof u_pos as U. pose proof u_tiny as UT. pose proof eta_u as EU. destruct cst1 as (V1 & F1). destruct half_val as (VH & FH).
  
  assert (H1 : 1000 <= huge) by (apply Rle_trans with (bpow radix2 10); [change (bpow radix2 10) with 1024; lra|apply bpow_le; lia]).
  set (K := B2R k) in *. set (eb := logistic_error ke K) in *. intros cor. fold K in C.
  assert (EB : 4 * u <= eb).
  { unfold eb, logistic_error. pose proof tiny_eta. pose proof (Rabs_pos K). assert (0 <= u * Rabs K) by (apply Rmult_le_pos; lra). pose proof (relative_pos (ke + 8 * u * Rabs K + tiny) ltac:(lra)). lra. }
  assert (NC : C <> 0).
  { intros Z. pose proof (type109_val K 1 NK) as E. destruct (type109_ends K NK) as (_ & E1 & _). rewrite E in E1. injection E1 as E1. unfold sigmoid in E1. fold C in E1. rewrite Z in E1. unfold Rdiv in E1. rewrite Rinv_0 in E1. lra. }
  pose proof (Rabs_pos_lt _ NC) as CP. assert (RC : eb = r * Rabs C) by (unfold r, sigmoid_strain; fold eb C; field; lra).
  assert (r0 : 0 <= r) by (unfold r, sigmoid_strain; fold eb C; apply Rmult_le_pos; [lra|left; now apply Rinv_0_lt_compat]).
  assert (CB : 32 * u <= Rabs C <= / 2). { split; [assert (r * Rabs C <= / 8 * Rabs C) by (apply Rmult_le_compat_r; lra); lra|]. unfold C, logistic, Rdiv. rewrite Rmult_1_l. pose proof (exp_pos (- K * 1)).
    assert (0 < / (1 + exp (- K * 1)) < 1) by (apply inv_below_1; lra). apply Rabs_le. lra. }
  pose proof (base_near k (f64_cst L1) 1 0 FK K6 ltac:(rewrite <- V1; now apply near_self) ltac:(lra) ltac:(rewrite Rabs_pos_eq; lra) D1) as (FC & NCC). fold K eb C in NCC.
  set (c := sigmoid_base O k (f64_cst L1)) in *.
  assert (cl : 7 / 8 * Rabs C <= Rabs (B2R c)).
  { pose proof (Rabs_triang_inv C (C - B2R c)) as T. replace (C - (C - B2R c)) with (B2R c) in T by ring. rewrite (Rabs_minus_sym C) in T.
    assert (r * Rabs C <= / 8 * Rabs C) by (apply Rmult_le_compat_r; lra). lra. }
  assert (Nc : B2R c <> 0) by (intros Z; rewrite Z, Rabs_R0 in cl; lra).
  assert (IC : 0 < / Rabs C) by now apply Rinv_0_lt_compat. assert (ICC : / Rabs C * Rabs C = 1) by (apply Rinv_l; lra).
  assert (ICU : u * / Rabs C <= / 32). { apply Rmult_le_reg_r with (Rabs C); [lra|]. rewrite Rmult_assoc, ICC. lra. }
  assert (I32 : / Rabs C * u <= / 32) by lra.
  assert (U53 : u = bpow radix2 (-53)) by (unfold ulp_half; cbn; lra).
  assert (ICB : / Rabs C <= bpow radix2 60).
  { apply Rmult_le_reg_r with u; [lra|]. eapply Rle_trans; [exact I32|]. rewrite U53, <- bpow_plus. change (bpow radix2 (60 + -53)) with 128. lra. }
  assert (H60 : bpow radix2 60 * 100 <= huge). { apply Rle_trans with (bpow radix2 60 * bpow radix2 7); [change (bpow radix2 7) with 128; pose proof (bpow_gt_0 radix2 60); lra|rewrite <- bpow_plus; apply bpow_le; lia]. }
  (* the correction *)
  assert (ic : 0 < / Rabs (B2R c) <= 8 / 7 * / Rabs C).
  { split; [apply Rinv_0_lt_compat; lra|]. apply Rle_trans with (/ (7 / 8 * Rabs C)); [apply Rinv_le_contravar; lra|]. rewrite Rinv_mult. lra. }
  assert (D : Rabs (/ 2 / B2R c - / 2 / C) <= 4 / 7 * r * / Rabs C).
  { replace (/ 2 / B2R c - / 2 / C) with (/ 2 * ((C - B2R c) * (/ B2R c * / C))) by (field; split; assumption). rewrite !Rabs_mult, !Rabs_inv, (Rabs_pos_eq 2), (Rabs_minus_sym C) by lra.
    assert (Rabs (B2R c - C) * (/ Rabs (B2R c) * / Rabs C) <= (r * Rabs C) * ((8 / 7 * / Rabs C) * / Rabs C)).
    { apply Rmult_le_compat; [apply Rabs_pos|apply Rmult_le_pos; lra|lra|apply Rmult_le_compat_r; lra]. }
    replace ((r * Rabs C) * ((8 / 7 * / Rabs C) * / Rabs C)) with (8 / 7 * r * / Rabs C * (/ Rabs C * Rabs C)) in H by ring. rewrite ICC in H. lra. }
  assert (A2 : Rabs (/ 2 / B2R c) <= 4 / 7 * / Rabs C).
  { unfold Rdiv. rewrite Rabs_mult, !Rabs_inv, (Rabs_pos_eq 2) by lra. lra. }
  destruct (op_fin _ _ (ov_div (f64_cst Lhalf) c FH FC Nc)) as (FD & ED); [rewrite VH; lra|]. rewrite VH in ED.
  fold cor in FD, ED.
  assert (i1 : 1 <= / Rabs C). { rewrite <- Rinv_1. apply Rinv_le_contravar; lra. }
  assert (uA : u * Rabs (/ 2 / B2R c) <= u * (4 / 7 * / Rabs C)) by (apply Rmult_le_compat_l; lra).
  assert (ui : u * 1 <= u * / Rabs C) by (apply Rmult_le_compat_l; lra).
  assert (rI : 0 <= r * / Rabs C <= / 8 * / Rabs C) by (split; [apply Rmult_le_pos|apply Rmult_le_compat_r]; lra).
  assert (DC : Rabs (B2R cor - / 2 / C) <= (4 / 7 * r + 6 / 10 * u) * / Rabs C).
  { replace (B2R cor - / 2 / C) with ((B2R cor - / 2 / B2R c) + (/ 2 / B2R c - / 2 / C)) by ring. eapply Rle_trans; [apply Rabs_triang|]. lra. }
  assert (AC : Rabs (B2R cor) <= 6 / 10 * / Rabs C).
  { replace (B2R cor) with ((B2R cor - / 2 / B2R c) + / 2 / B2R c) by ring. eapply Rle_trans; [apply Rabs_triang|]. assert (u * / Rabs C <= / 1000 * / Rabs C) by (apply Rmult_le_compat_r; lra). lra. }
  split; [exact FD|split; [exact DC|split; [exact AC|split; [exact NC|split; [exact CB|split; [exact RC|exact r0]]]]]].
Qed.
Lemma type109_near k x : finite k -> Rabs (B2R k) <= 600 -> B2R k <> 0 -> finite x -> 0 <= B2R x <= 1 ->
  ke + 8 * u * Rabs (B2R k) + tiny <= / 10 -> let r := sigmoid_strain ke (B2R k) in r <= / 8 ->
  exists y, eval_parametric O 109 [k] x = Some y /\ near y (sigmoid (B2R k) (B2R x)) (2 * r + 3 * u).
Proof.
  intros FK K6 NK FX X01 D1 r R8. pose proof u_pos as U. pose proof u_tiny as UT. pose proof eta_u as EU. destruct cst1 as (V1 & F1). destruct half_val as (VH & FH).
  destruct two_val as (V2 & F2). exists (sigmoid_factory O k x). split; [reflexivity|].
  assert (H1 : 1000 <= huge) by (apply Rle_trans with (bpow radix2 10); [change (bpow radix2 10) with 1024; lra|apply bpow_le; lia]).
  destruct (correction_near k FK K6 NK D1 R8) as (FD & DC & AC & NC & CB & RC & r0). fold r in DC, RC, r0.
  set (K := B2R k) in *. set (eb := logistic_error ke K) in *. set (C := logistic K 1) in *. set (cor := Bdiv mode_NE (f64_cst Lhalf) (sigmoid_base O k (f64_cst L1))) in *.
  pose proof (Rabs_pos_lt _ NC) as CP.
  (* the argument *)
  assert (T2 : near (Bminus mode_NE (Bmult mode_NE (f64_cst L2) x) (f64_cst L1)) (2 * B2R x - 1) (4 * u)).
  { assert (M : near (Bmult mode_NE (f64_cst L2) x) (2 * B2R x) (2 * u + eta)).
    { pose proof (near_mult (f64_cst L2) x (B2R x) 0 F2 (near_self x FX)) as N. rewrite V2 in N. rewrite (Rabs_pos_eq 2), (Rabs_pos_eq (2 * B2R x)) in N by lra. eapply near_weaken; [apply N; lra|].
      assert (u * (2 * B2R x + 2 * 0) <= u * 2) by (apply Rmult_le_compat_l; lra). lra. }
    assert (A1 : Rabs (2 * B2R x - 1) <= 1) by (apply Rabs_le; lra).
    pose proof (near_minus _ _ _ _ _ _ M (near_self _ F1)) as N. rewrite V1 in N. eapply near_weaken; [apply N; lra|].
    assert (u * (Rabs (2 * B2R x - 1) + (2 * u + eta + 0)) <= u * (11 / 10)) by (apply Rmult_le_compat_l; lra). lra. }
  set (t := Bminus mode_NE (Bmult mode_NE (f64_cst L2) x) (f64_cst L1)) in *. set (T := 2 * B2R x - 1) in *.
  pose proof (base_near k t T (4 * u) FK K6 T2 ltac:(lra) ltac:(apply Rabs_le; unfold T; lra) D1) as (FS & NS). fold K eb in NS. set (s := sigmoid_base O k t) in *. set (S := logistic K T) in *.
  assert (SC : Rabs (/ 2 / C * S) <= / 2).
  { destruct (type109_range K (B2R x) NK X01) as (y & E & Y). rewrite type109_val in E by exact NK. injection E as E. unfold sigmoid in E. fold T C S in E. apply Rabs_le. lra. }
  assert (IC : 0 < / Rabs C) by now apply Rinv_0_lt_compat. assert (ICC : / Rabs C * Rabs C = 1) by (apply Rinv_l; lra).
  (* the product *)
  assert (S2 : Rabs S <= Rabs C).
  { unfold Rdiv in SC. rewrite !Rabs_mult, !Rabs_inv, (Rabs_pos_eq 2) in SC by lra. apply Rmult_le_reg_l with (/ Rabs C); [exact IC|]. rewrite ICC. lra. }
  assert (DP : Rabs (B2R cor * B2R s - / 2 / C * S) <= 12 / 10 * r + 6 / 10 * u).
  { replace (B2R cor * B2R s - / 2 / C * S) with (B2R cor * (B2R s - S) + (B2R cor - / 2 / C) * S) by ring. eapply Rle_trans; [apply Rabs_triang|]. rewrite !Rabs_mult.
    assert (Rabs (B2R cor) * Rabs (B2R s - S) <= (6 / 10 * / Rabs C) * (r * Rabs C)) by (apply Rmult_le_compat; try apply Rabs_pos; lra).
    assert (Rabs (B2R cor - / 2 / C) * Rabs S <= ((4 / 7 * r + 6 / 10 * u) * / Rabs C) * Rabs C) by (apply Rmult_le_compat; try apply Rabs_pos; lra).
    rewrite Rmult_assoc, ICC in H0. replace (6 / 10 * / Rabs C * (r * Rabs C)) with (6 / 10 * r * (/ Rabs C * Rabs C)) in H by ring. rewrite ICC in H. lra. }
  pose proof (near_op _ _ _ _ (ov_mult cor s FD FS) DP ltac:(lra)) as NM.
  pose proof (near_plus _ _ _ _ _ _ NM (near_self _ FH)) as NP. rewrite VH in NP. change (/ 2 / C * S + / 2) with (sigmoid K (B2R x)) in NP.
  assert (SG : 0 <= sigmoid K (B2R x) <= 1). { unfold sigmoid. fold T C S. apply Rabs_le_inv in SC. lra. } rewrite (Rabs_pos_eq (sigmoid K (B2R x))) in NP by lra.
  set (e1 := 12 / 10 * r + 6 / 10 * u) in *. assert (E1 : 0 <= e1 <= 2 / 10) by (unfold e1; lra).
  assert (ue : 0 <= u * (Rabs (/ 2 / C * S) + e1) <= u * (7 / 10)) by (split; [apply Rmult_le_pos; [|pose proof (Rabs_pos (/ 2 / C * S))]; lra|apply Rmult_le_compat_l; lra]).
  change (sigmoid_factory O k x) with (Bplus mode_NE (Bmult mode_NE cor s) (f64_cst Lhalf)). eapply near_weaken; [apply NP; lra|].
  assert (u * (sigmoid K (B2R x) + (e1 + u * (Rabs (/ 2 / C * S) + e1) + eta + 0)) <= u * (13 / 10)) by (apply Rmult_le_compat_l; lra). unfold e1 in *. lra.
Qed.

(** The reverse, with its decimal logarithm. *)
Lemma strong_enough K : 32 * u <= Rabs (logistic K 1) -> 32 * u <= Rabs K.
Proof.
  intros H. pose proof u_pos as U. pose proof u_tiny as UT. destruct (Rle_dec (/ 10) (Rabs K)) as [L|L]; [lra|].
  pose proof (logistic_close (exp (- K * 1)) 1 (Rabs K) (exp_pos _) ltac:(lra)) as C. rewrite ln_exp, ln_1 in C. replace (- K * 1 - 0) with (- K) in C by ring.
  rewrite Rabs_Ropp in C. specialize (C ltac:(lra)). pose proof (Rabs_pos K). pose proof (relative_small (Rabs K) ltac:(lra)) as RS.
  unfold logistic, Rdiv in H. rewrite Rmult_1_l in H. replace (/ (1 + 1)) with (/ 2) in C by lra. lra.
Qed.
Context (kl : R) (AL : accurate_log kl lg) (KL : 0 <= kl <= / 100).
Lemma type_m109_near k y : finite k -> Rabs (B2R k) <= 600 -> B2R k <> 0 -> finite y -> 0 <= B2R y <= 1 ->
  ke + 8 * u * Rabs (B2R k) + tiny <= / 10 -> let r := sigmoid_strain ke (B2R k) in r <= / 8 ->
  let W := 2 * logistic (B2R k) 1 * (B2R y - / 2) + / 2 in let L := log_10 ((1 - W) / W) in let p := (2 * r + 8 * u) / (W * (1 - W)) in
  p <= / 8 ->
  exists x, eval_parametric O (-109) [k] y = Some x /\
    near x ((- L / B2R k + 1) / 2) (((kl + 2 * u) * Rabs L + 2 * p) / Rabs (B2R k) + 2 * u).
Proof.
  intros FK K6 NK FY Y01 D1 r R8 W L p P8. pose proof u_pos as U. pose proof u_tiny as UT. pose proof eta_u as EU. destruct cst1 as (V1 & F1). destruct half_val as (VH & FH).
  destruct two_val as (V2 & F2). exists (inverted_sigmoid_factory O k y). split; [reflexivity|].
  assert (H1 : 1000 <= huge) by (apply Rle_trans with (bpow radix2 10); [change (bpow radix2 10) with 1024; lra|apply bpow_le; lia]).
  destruct (correction_near k FK K6 NK D1 R8) as (FD & DC & AC & NC & CB & RC & r0). fold r in DC, RC, r0.
  set (K := B2R k) in *. set (C := logistic K 1) in *. set (cor := Bdiv mode_NE (f64_cst Lhalf) (sigmoid_base O k (f64_cst L1))) in *.
  pose proof (Rabs_pos_lt _ NC) as CP. assert (IC : 0 < / Rabs C) by now apply Rinv_0_lt_compat. assert (ICC : / Rabs C * Rabs C = 1) by (apply Rinv_l; lra).
  assert (C4 : 42 / 100 * / Rabs C <= Rabs (B2R cor)).
  { pose proof (Rabs_triang_inv (/ 2 / C) (/ 2 / C - B2R cor)) as T. replace (/ 2 / C - (/ 2 / C - B2R cor)) with (B2R cor) in T by ring. rewrite (Rabs_minus_sym (/ 2 / C)) in T.
    assert (E : Rabs (/ 2 / C) = / 2 * / Rabs C) by (unfold Rdiv; rewrite Rabs_mult, !Rabs_inv, (Rabs_pos_eq 2) by lra; reflexivity). rewrite E in T.
    assert ((4 / 7 * r + 6 / 10 * u) * / Rabs C <= (75 / 1000) * / Rabs C) by (apply Rmult_le_compat_r; lra). lra. }
  assert (Nc : B2R cor <> 0) by (intros Z; rewrite Z, Rabs_R0 in C4; lra).
  assert (ic : 0 < / Rabs (B2R cor) <= 24 / 10 * Rabs C).
  { split; [apply Rinv_0_lt_compat; lra|]. apply Rle_trans with (/ (42 / 100 * / Rabs C)); [apply Rinv_le_contravar; lra|]. rewrite Rinv_mult, Rinv_inv. lra. }
  (* (y - 0.5) / correction *)
  set (h := B2R y - / 2) in *. assert (H2 : Rabs h <= / 2) by (apply Rabs_le; unfold h; lra).
  assert (NA : near (Bminus mode_NE y (f64_cst Lhalf)) h (6 / 10 * u)).
  { pose proof (near_minus _ _ _ _ _ _ (near_self y FY) (near_self _ FH)) as N. rewrite VH in N. fold h in N. eapply near_weaken; [apply N; lra|].
    assert (u * (Rabs h + (0 + 0)) <= u * / 2) by (apply Rmult_le_compat_l; lra). lra. }
  destruct NA as (FA & EA). set (a := Bminus mode_NE y (f64_cst Lhalf)) in *.
  assert (DZ : Rabs (B2R a / B2R cor - 2 * C * h) <= 7 / 10 * r + 16 / 10 * u).
  { replace (B2R a / B2R cor - 2 * C * h) with ((B2R a - h) * / B2R cor + h * ((/ 2 / C - B2R cor) * (/ B2R cor * (2 * C)))) by (field; split; assumption).
    eapply Rle_trans; [apply Rabs_triang|]. rewrite !Rabs_mult, Rabs_inv, (Rabs_pos_eq 2), (Rabs_minus_sym (/ 2 / C)) by lra.
    assert (A1 : Rabs (B2R a - h) * / Rabs (B2R cor) <= (6 / 10 * u) * (24 / 10 * / 2)) by (apply Rmult_le_compat; try apply Rabs_pos; lra).
    assert (B1 : / Rabs (B2R cor) * (2 * Rabs C) <= (24 / 10 * Rabs C) * (2 * / 2)) by (apply Rmult_le_compat; lra).
    assert (B2 : Rabs (B2R cor - / 2 / C) * (/ Rabs (B2R cor) * (2 * Rabs C)) <= ((4 / 7 * r + 6 / 10 * u) * / Rabs C) * (24 / 10 * Rabs C)).
    { apply Rmult_le_compat; [apply Rabs_pos|apply Rmult_le_pos; lra|exact DC|lra]. }
    replace ((4 / 7 * r + 6 / 10 * u) * / Rabs C * (24 / 10 * Rabs C)) with (24 / 10 * (4 / 7 * r + 6 / 10 * u) * (/ Rabs C * Rabs C)) in B2 by ring. rewrite ICC in B2.
    assert (B3 : Rabs h * (Rabs (B2R cor - / 2 / C) * (/ Rabs (B2R cor) * (2 * Rabs C))) <= / 2 * (24 / 10 * (4 / 7 * r + 6 / 10 * u) * 1)).
    { apply Rmult_le_compat; [apply Rabs_pos| |exact H2|exact B2]. apply Rmult_le_pos; [apply Rabs_pos|apply Rmult_le_pos; lra]. } lra. }
  assert (ZB : Rabs (2 * C * h) <= / 2).
  { rewrite !Rabs_mult, (Rabs_pos_eq 2) by lra. assert (Rabs C * Rabs h <= / 2 * / 2) by (apply Rmult_le_compat; try apply Rabs_pos; lra). lra. }
  assert (NZ : near (Bdiv mode_NE a cor) (2 * C * h) (7 / 10 * r + 23 / 10 * u)).
  { eapply near_weaken; [apply (near_op _ _ _ _ (ov_div a cor FA FD Nc) DZ); lra|].
    assert (u * (Rabs (2 * C * h) + (7 / 10 * r + 16 / 10 * u)) <= u * (6 / 10)) by (apply Rmult_le_compat_l; lra). lra. }
  assert (WB : 0 <= W <= 1) by (unfold W; apply Rabs_le_inv in ZB; lra).
  assert (NW : near (Bplus mode_NE (Bdiv mode_NE a cor) (f64_cst Lhalf)) W (7 / 10 * r + 35 / 10 * u)).
  { pose proof (near_plus _ _ _ _ _ _ NZ (near_self _ FH)) as N. rewrite VH in N. fold W in N. rewrite (Rabs_pos_eq W) in N by lra. eapply near_weaken; [apply N; lra|].
    assert (u * (W + (7 / 10 * r + 23 / 10 * u + 0)) <= u * (11 / 10)) by (apply Rmult_le_compat_l; lra). lra. }
  destruct NW as (FW & EW). set (w := Bplus mode_NE (Bdiv mode_NE a cor) (f64_cst Lhalf)) in *.
  (* W is away from 0 and 1 *)
  assert (NWW : 0 < W * (1 - W)).
  { assert (0 <= W * (1 - W)) by (apply Rmult_le_pos; lra). destruct (Req_dec (W * (1 - W)) 0) as [Z|]; [|lra]. exfalso.
    apply Rmult_integral in Z. assert (WE : W = 0 \/ W = 1) by (destruct Z; [left|right]; lra).
    assert (HH : Rabs (2 * C * h) = / 2) by (replace (2 * C * h) with (W - / 2) by (unfold W; ring); destruct WE as [-> | ->]; [rewrite Rabs_left|rewrite Rabs_pos_eq]; lra).
    rewrite !Rabs_mult, (Rabs_pos_eq 2) in HH by lra. assert (Rabs C < / 2).
    { unfold C, logistic, Rdiv. rewrite Rmult_1_l. pose proof (exp_pos (- K * 1)). pose proof (inv_below_1 (1 + exp (- K * 1)) ltac:(lra)). apply Rabs_def1; lra. }
    assert (Rabs C * Rabs h <= Rabs C * / 2) by (apply Rmult_le_compat_l; lra). lra. }
  assert (W0 : 0 < W < 1) by (split; [destruct (Req_dec W 0) as [Z|]; [rewrite Z in NWW|]|destruct (Req_dec W 1) as [Z|]; [rewrite Z in NWW|]]; lra).
  assert (PW : p * (W * (1 - W)) = 2 * r + 8 * u) by (unfold p; field; lra). assert (p0 : 0 < p) by (unfold p; apply Rmult_lt_0_compat; [lra|now apply Rinv_0_lt_compat]).
  assert (PL : p * (1 - W) <= / 8) by (assert (p * (1 - W) <= / 8 * 1) by (apply Rmult_le_compat; lra); lra).
  assert (EW' : Rabs (B2R w - W) <= 44 / 100 * (p * (1 - W)) * W) by lra.
  assert (pWW : p * (1 - W) * W <= / 8 * W) by (apply Rmult_le_compat_r; lra).
  apply Rabs_le_inv in EW'. assert (wl : 94 / 100 * W <= B2R w) by lra. assert (w0 : 0 < B2R w) by lra.
  set (V := (1 - W) / W) in *. assert (V0 : 0 < V) by (apply Rmult_lt_0_compat; [lra|apply Rinv_0_lt_compat; lra]).
  assert (VW : V * W = 1 - W) by (unfold V; field; lra). pose proof (Rinv_0_lt_compat W ltac:(lra)) as IW. assert (IWW : / W * W = 1) by (apply Rinv_l; lra).
  assert (VI : V = / W - 1) by (unfold V; field; lra).
  assert (IQ : Rabs (/ B2R w - / W) <= 48 / 100 * (p * V)).
  { replace (/ B2R w - / W) with ((W - B2R w) * / (B2R w * W)) by (field; lra). assert (WW : 0 < B2R w * W) by (apply Rmult_lt_0_compat; lra).
    rewrite Rabs_mult, (Rabs_pos_eq (/ _)) by (left; now apply Rinv_0_lt_compat). apply Rmult_le_reg_r with (B2R w * W); [exact WW|]. rewrite Rmult_assoc, Rinv_l by lra.
    assert (A1 : Rabs (W - B2R w) <= 44 / 100 * (p * (1 - W)) * W) by (apply Rabs_le; lra). rewrite Rmult_1_r. eapply Rle_trans; [exact A1|].
    replace (48 / 100 * (p * V) * (B2R w * W)) with (48 / 100 * (p * (V * W)) * B2R w) by ring. rewrite VW.
    assert (48 / 100 * (p * (1 - W)) * (94 / 100 * W) <= 48 / 100 * (p * (1 - W)) * B2R w) by (apply Rmult_le_compat_l; [|exact wl]; apply Rmult_le_pos; [lra|apply Rmult_le_pos; lra]).
    assert (0 <= p * (1 - W) * W) by (apply Rmult_le_pos; [apply Rmult_le_pos|]; lra). lra. }
  assert (U8 : u <= / 8 * (p * (1 - W) * W)) by lra.
  assert (UW : u * / W <= / 8 * (p * V)).
  { apply Rmult_le_reg_r with W; [lra|]. rewrite Rmult_assoc, IWW. replace (/ 8 * (p * V) * W) with (/ 8 * (p * (V * W))) by ring. rewrite VW.
    assert (p * (1 - W) * W <= p * (1 - W) * 1) by (apply Rmult_le_compat_l; [apply Rmult_le_pos|]; lra). lra. }
  assert (IW1 : 1 < / W) by (rewrite <- Rinv_1; apply Rinv_lt_contravar; lra).
  assert (UV : u <= / 8 * (p * V)) by (assert (u * 1 <= u * / W) by (apply Rmult_le_compat_l; lra); lra).
  assert (pV : 0 <= p * V <= / 8 * V) by (split; [apply Rmult_le_pos|apply Rmult_le_compat_r]; lra).
  assert (W53 : u <= W) by (assert (p * (1 - W) * W <= 1 * W) by (apply Rmult_le_compat_r; lra); lra).
  assert (W53' : u <= 1 - W).
  { assert (p * W * (1 - W) <= 1 * (1 - W)); [apply Rmult_le_compat_r; [lra|]|lra]. assert (p * W <= / 8 * 1) by (apply Rmult_le_compat; lra). lra. }
  assert (U53 : u = bpow radix2 (-53)) by (unfold ulp_half; cbn; lra).
  assert (I53 : / u = bpow radix2 53) by (rewrite U53; symmetry; apply (bpow_opp radix2 (-53))).
  assert (IWU : / W <= bpow radix2 53) by (rewrite <- I53; apply Rinv_le_contravar; lra).
  assert (H60 : bpow radix2 53 * 1000 <= huge). { apply Rle_trans with (bpow radix2 53 * bpow radix2 10); [change (bpow radix2 10) with 1024; pose proof (bpow_gt_0 radix2 53); lra|rewrite <- bpow_plus; apply bpow_le; lia]. }
  (* 1 / w - 1 *)
  assert (IQ' : Rabs (1 / B2R w - / W) <= 48 / 100 * (p * V)) by (unfold Rdiv; rewrite Rmult_1_l; exact IQ).
  pose proof (ov_div (f64_cst L1) w F1 FW ltac:(lra)) as OD. rewrite V1 in OD.
  pose proof (near_op _ _ _ _ OD IQ') as NQ. rewrite (Rabs_pos_eq (/ W)) in NQ by lra.
  assert (NQ' : near (Bdiv mode_NE (f64_cst L1) w) (/ W) (65 / 100 * (p * V))).
  { eapply near_weaken; [apply NQ; lra|]. assert (u * (/ W + 48 / 100 * (p * V)) <= u * / W + / 1000 * (48 / 100 * (p * V))).
    { rewrite Rmult_plus_distr_l. apply Rplus_le_compat_l. apply Rmult_le_compat_r; lra. } lra. }
  pose proof (near_minus _ _ _ _ _ _ NQ' (near_self _ F1)) as NV. rewrite V1, <- VI, (Rabs_pos_eq V) in NV by lra.
  assert (up : u <= / 32 * p). { assert (W * (1 - W) <= / 4) by (pose proof (Rle_0_sqr (W - / 2)) as Q; unfold Rsqr in Q; lra). assert (p * (W * (1 - W)) <= p * / 4) by (apply Rmult_le_compat_l; lra). lra. }
  assert (uV : u * V <= / 32 * p * V) by (apply Rmult_le_compat_r; lra).
  assert (EV : near (Bminus mode_NE (Bdiv mode_NE (f64_cst L1) w) (f64_cst L1)) V (p * V)).
  { eapply near_weaken; [apply NV; lra|]. assert (u * (65 / 100 * (p * V)) <= / 1000 * (65 / 100 * (p * V))) by (apply Rmult_le_compat_r; lra). lra. }
  destruct EV as (FV & EV). set (v := Bminus mode_NE (Bdiv mode_NE (f64_cst L1) w) (f64_cst L1)) in *.
  destruct (ln_close (B2R v) V p V0 ltac:(lra) EV) as (v0 & LV). pose proof (log10_close _ _ _ LV) as LL. fold L in LL.
  assert (LS : Rabs L <= 300).
  { apply log10_size. pose proof ln2_upper. pose proof ln2_lower. assert (V <= bpow radix2 53) by lra.
    assert (bpow radix2 (-53) <= V). { rewrite <- U53. assert (V * W <= V * 1) by (apply Rmult_le_compat_l; lra). lra. }
    assert (ln V <= ln (bpow radix2 53)) by (destruct (Req_dec V (bpow radix2 53)) as [->|]; [lra|left; apply ln_increasing; lra]).
    assert (ln (bpow radix2 (-53)) <= ln V) by (destruct (Req_dec V (bpow radix2 (-53))) as [->|]; [lra|left; apply ln_increasing; [apply bpow_gt_0|lra]]).
    rewrite ln_bpow in *. apply Rabs_le. lra. }
  (* the logarithm *)
  destruct (AL v (conj FV v0)) as (FL & EL). set (l := lg v) in *.
  assert (NL : Rabs (B2R l - L) <= kl * Rabs L + 101 / 100 * p).
  { replace (B2R l - L) with ((B2R l - log_10 (B2R v)) + (log_10 (B2R v) - L)) by ring. eapply Rle_trans; [apply Rabs_triang|].
    assert (Rabs (log_10 (B2R v)) <= Rabs L + p). { replace (log_10 (B2R v)) with ((log_10 (B2R v) - L) + L) by ring. eapply Rle_trans; [apply Rabs_triang|]. lra. }
    assert (kl * Rabs (log_10 (B2R v)) <= kl * (Rabs L + p)) by (apply Rmult_le_compat_l; lra). assert (kl * p <= / 100 * p) by (apply Rmult_le_compat_r; lra). lra. }
  destruct (opp_val l FL) as (FO & VO). assert (NO : near (Bopp l) (- L) (kl * Rabs L + 101 / 100 * p)).
  { split; [exact FO|]. rewrite VO. replace (- B2R l - - L) with (- (B2R l - L)) by ring. now rewrite Rabs_Ropp. }
  pose proof (Rabs_pos_lt _ NK) as KP. fold K in KP. assert (K32 : 32 * u <= Rabs K) by (apply strong_enough; fold C; lra).
  assert (IK : 0 < / Rabs K <= bpow radix2 53) by (split; [now apply Rinv_0_lt_compat|rewrite <- I53; apply Rinv_le_contravar; lra]).
  pose proof (Rabs_pos L) as L0. set (el := kl * Rabs L + 101 / 100 * p) in *. assert (el0 : 0 <= el <= 4).
  { unfold el. assert (0 <= kl * Rabs L <= / 100 * 300) by (split; [apply Rmult_le_pos|apply Rmult_le_compat]; lra). lra. }
  set (G := Rabs L / Rabs K). set (E := el / Rabs K). assert (G0 : 0 <= G <= 300 * bpow radix2 53) by (split; [apply Rmult_le_pos|apply Rmult_le_compat]; lra).
  assert (E0 : 0 <= E <= 4 * bpow radix2 53) by (split; [apply Rmult_le_pos|apply Rmult_le_compat]; lra).
  pose proof (near_div (Bopp l) k (- L) el NO FK NK) as ND. fold K in ND. assert (GA : Rabs (- L / K) = G) by (unfold Rdiv; rewrite Rabs_mult, Rabs_Ropp, Rabs_inv; reflexivity).
  rewrite GA in ND. fold E in ND. specialize (ND ltac:(lra)).
  assert (uE : 0 <= u * E <= / 1000 * E) by (split; [apply Rmult_le_pos|apply Rmult_le_compat_r]; lra). assert (uG : 0 <= u * G <= / 1000 * G) by (split; [apply Rmult_le_pos|apply Rmult_le_compat_r]; lra).
  assert (ND' : near (Bdiv mode_NE (Bopp l) k) (- L / K) (1001 / 1000 * E + u * G + eta)) by (eapply near_weaken; [exact ND|]; lra).
  pose proof (near_plus _ _ _ _ _ _ ND' (near_self _ F1)) as NP. rewrite V1 in NP. set (M := - L / K + 1) in *.
  assert (MB : Rabs M <= G + 1) by (unfold M; eapply Rle_trans; [apply Rabs_triang|]; rewrite GA, (Rabs_pos_eq 1); lra).
  specialize (NP ltac:(lra)). set (e1 := 1001 / 1000 * E + u * G + eta) in *.
  assert (NP' : near (Bplus mode_NE (Bdiv mode_NE (Bopp l) k) (f64_cst L1)) M (101 / 100 * E + 21 / 10 * (u * G) + 11 / 10 * u)).
  { eapply near_weaken; [exact NP|]. assert (u * (Rabs M + (e1 + 0)) <= u * (G + 1) + / 1000 * e1). { rewrite Rmult_plus_distr_l. apply Rplus_le_compat; [apply Rmult_le_compat_l; lra|]. rewrite Rplus_0_r. apply Rmult_le_compat_r; unfold e1; lra. }
    unfold e1 in *. lra. }
  set (e2 := 101 / 100 * E + 21 / 10 * (u * G) + 11 / 10 * u) in *.
  pose proof (near_div _ (f64_cst L2) M e2 NP' F2 ltac:(lra)) as NF. rewrite V2 in NF. assert (M2 : Rabs (M / 2) <= (G + 1) / 2) by (unfold Rdiv; rewrite Rabs_mult, (Rabs_pos_eq (/ 2)) by lra; lra).
  rewrite (Rabs_pos_eq 2) in NF by lra. change (inverted_sigmoid_factory O k y) with (Bdiv mode_NE (Bplus mode_NE (Bdiv mode_NE (Bopp l) k) (f64_cst L1)) (f64_cst L2)).
  eapply near_weaken; [apply NF; unfold e2; lra|].
  assert (u * (Rabs (M / 2) + e2 / 2) <= u * ((G + 1) / 2) + / 1000 * (e2 / 2)). { rewrite Rmult_plus_distr_l. apply Rplus_le_compat; [apply Rmult_le_compat_l; lra|]. apply Rmult_le_compat_r; unfold e2; lra. }
  replace (((kl + 2 * u) * Rabs L + 2 * p) / Rabs K) with ((kl * Rabs L) / Rabs K + 2 * (u * G) + 2 * (p / Rabs K)) by (unfold G, Rdiv; ring).
  assert (EE : E = (kl * Rabs L) / Rabs K + 101 / 100 * (p / Rabs K)) by (unfold E, el, Rdiv; ring).
  assert (0 <= p / Rabs K) by (apply Rmult_le_pos; lra). assert (0 <= kl * Rabs L / Rabs K) by (apply Rmult_le_pos; [apply Rmult_le_pos|]; lra).
  unfold e2 in *. lra.
Qed.
End Exp.
