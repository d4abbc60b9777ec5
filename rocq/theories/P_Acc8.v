(** Cases that meet the hypotheses of C96 and C97. *)
From Coq Require Import ZArith Reals Lia Lra Psatz.
From Flocq Require Import Core Relative IEEE754.BinarySingleNaN.
From Verif Require Import M_Base M_F64 M_Curve M_CurveF64 S_F64 S_Curve S_Accuracy P_S15 P_F64 P_Curve3 P_CurveErr P_Ideal P_CurveErr2 P_CurveErr3 P_CurveErr4 P_Acc P_Acc2 P_Acc3 P_Acc4 P_Acc5 P_Acc6 P_Acc7 P_Acc9 P_Curve P_Curve2.
Open Scope R_scope.

Notation n40 := (/ IZR (2 ^ 40)).
Notation calc := (eval_parametric (f64_ops ideal_pow ideal_log (fun x => x))).
Lemma n40_u : n40 = 8192 * u. Proof. unfold ulp_half. cbn. lra. Qed.
Lemma tiny_u : 0 < tiny <= u.
Proof. split; [apply bpow_gt_0|]. replace u with (bpow radix2 (-53)) by (unfold ulp_half; cbn; lra). apply bpow_le. lia. Qed.
Lemma small_u : 0 < bpow radix2 (-1054) <= u /\ 0 < bpow radix2 (-1055) <= u.
Proof. replace u with (bpow radix2 (-53)) by (unfold ulp_half; cbn; lra). repeat split; (apply bpow_gt_0 || (apply bpow_le; lia)). Qed.
Lemma Rpower_two x : 0 < x -> Rpower x 2 = x * x.
Proof. intros X. replace 2 with (INR 2) by (cbn; lra). rewrite Rpower_pow by exact X. cbn. lra. Qed.
Lemma inv_half : / / 2 = 2. Proof. apply Rinv_inv. Qed.
Lemma ln_size x : / 2 <= x <= 300 -> Rabs (ln x) <= 299.
Proof.
  intros H. apply Rabs_le. split.
  - pose proof ln2_range. assert (ln (/ 2) <= ln x) by (destruct (Req_dec (/ 2) x) as [<-|]; [|left; apply ln_increasing]; lra). rewrite ln_Rinv in * by lra. lra.
  - assert (x <= exp 299). { pose proof (exp_ineq1 299 ltac:(lra)). lra. }
    rewrite <- (ln_exp 299). destruct (Req_dec x (exp 299)) as [->|]; [lra|left; apply ln_increasing; lra].
Qed.
Ltac vals := destruct cst1 as (V1 & F1); destruct two_val as (V2 & F2); destruct half_val as (VH & FH);
  pose proof u_pos as U; pose proof u_tiny as UT; pose proof tol64_small as TS; pose proof big_900 as B9; pose proof big_800 as B8;
  pose proof tiny_u as TU; destruct small_u as (SM1 & SM2); pose proof n40_u as N40;
  pose proof abs_ln2 as AL2; pose proof abs_lnhalf as ALH; pose proof ln2_range as LN2.
Ltac num := rewrite ?(proj1 cst1), ?(proj1 two_val), ?(proj1 half_val); rewrite ?Rabs_pos_eq by lra; try lra.
Definition some_near (r : option f64) (v t : R) : Prop := exists y, r = Some y /\ near y v t.
Lemma some_weaken r v t v' t' : some_near r v t -> v = v' -> t <= t' -> some_near r v' t'.
Proof. intros (y & E & N) <- L. exists y. split; [exact E|]. now apply (near_weaken y v t). Qed.
Ltac fin := unfold positive, finite; repeat split; try assumption; num.

Lemma case1 : some_near (calc 1 [two] two) 4 n40.
Proof.
  vals. pose proof (type1_near ideal_pow ideal_log (fun x => x) (2 * u) ideal_accurate two two F2 ltac:(fin)) as H.
  rewrite !V2 in H. specialize (H ltac:(rewrite Rabs_mult; rewrite (Rabs_pos_eq 2) by lra; lra)). rewrite Rpower_two in H by lra.
  eapply some_weaken; [exact H|lra|]. pose proof (relative_small (2 * u) ltac:(lra)). lra.
Qed.
Lemma strain_11 : strain (1 * 1) 1 = 1. Proof. apply strain_same; lra. Qed.
Lemma rel18 : 0 <= relative (2 * u + 8 * u * 1 * Rabs 2) <= 20 * u.
Proof. rewrite (Rabs_pos_eq 2) by lra. pose proof u_pos. pose proof u_tiny. pose proof (relative_small (2 * u + 8 * u * 1 * 2) ltac:(lra)). lra. Qed.
Lemma line_hyps : (0 < B2R one * B2R one + B2R one) /\ Rabs (ln (B2R one * B2R one + B2R one)) <= 600 /\ Rabs (B2R two * ln (B2R one * B2R one + B2R one)) <= 600 /\
  8 * u * strain (B2R one * B2R one) (B2R one) <= 1 /\ 8 * u * strain (B2R one * B2R one) (B2R one) * Rabs (B2R two) <= 1.
Proof.
  vals. rewrite !V1, !V2, strain_11. replace (1 * 1 + 1) with 2 by lra. rewrite Rabs_mult, (Rabs_pos_eq 2) by lra. repeat split; lra.
Qed.
Lemma line_t : Rpower (B2R one * B2R one + B2R one) (B2R two) = 4 /\
  0 <= relative (2 * u + 8 * u * strain (B2R one * B2R one) (B2R one) * Rabs (B2R two)) <= 20 * u.
Proof. vals. rewrite !V1, !V2, strain_11. split; [|apply rel18]. replace (1 * 1 + 1) with 2 by lra. rewrite Rpower_two by lra. lra. Qed.
Ltac line_case L := vals; destruct line_hyps as (H1 & H2 & H3 & H4 & H5); destruct line_t as (T1 & T2);
  pose proof (L ideal_pow ideal_log (fun x : f64 => x) (2 * u) ideal_accurate two one one (proj2 two_val) (proj2 cst1) (proj2 cst1) one (proj2 cst1) (proj1 line_hyps) (proj1 (proj2 line_hyps)) (proj1 (proj2 (proj2 line_hyps))) (proj1 (proj2 (proj2 (proj2 line_hyps)))) (proj2 (proj2 (proj2 (proj2 line_hyps))))) as H; cbv zeta in H; rewrite (proj1 line_t) in H; revert T2 H; generalize (relative (2 * u + 8 * u * strain (B2R one * B2R one) (B2R one) * Rabs (B2R two))); intros rr T2 H.
Lemma case2 : some_near (calc 2 [two; one; one] one) 4 n40.
Proof. line_case type2_near. eapply some_weaken; [apply H; rewrite V1; lra|lra|lra]. Qed.
Lemma case3 : some_near (calc 3 [two; one; one; one] one) 5 n40.
Proof. line_case type3_near. eapply some_weaken; [apply H; try assumption; num|num|num]. Qed.
Lemma case4 : some_near (calc 4 [two; one; one; two; half] one) 4 n40.
Proof. line_case type4_upper_near. eapply some_weaken; [apply H; try assumption; num|num|num]. Qed.
Lemma case4_line : some_near (calc 4 [two; one; one; two; one] half) 1 n40.
Proof. vals. eapply some_weaken; [apply type4_lower_near; try assumption; num|num|num]. Qed.
Lemma case5 : some_near (calc 5 [two; one; one; two; half; one; one] one) 5 n40.
Proof. line_case type5_upper_near. eapply some_weaken; [apply H; try assumption; num|num|num]. Qed.
Lemma case5_line : some_near (calc 5 [two; one; one; two; one; one; one] half) 2 n40.
Proof. vals. eapply some_weaken; [apply type5_lower_near; try assumption; num|num|num]. Qed.
Lemma case6 : some_near (calc 6 [two; one; one; one] one) 5 n40.
Proof. line_case type6_near. eapply some_weaken; [apply H; try assumption; num|num|num]. Qed.

Lemma log2_range : 0 <= log_10 2 <= 1.
Proof. unfold log_10. pose proof ln10_low. pose proof ln2_range. split; [apply Rmult_le_pos; [lra|left; apply Rinv_0_lt_compat; lra]|]. apply Rmult_le_reg_r with (ln 10); [lra|]. unfold Rdiv. rewrite Rmult_assoc, Rinv_l by lra. lra. Qed.
Lemma case7 : some_near (calc 7 [one; one; one; one; one] one) (log_10 2 + 1) n40.
Proof.
  vals. pose proof log2_range as LR. pose proof (relative_small (2 * u) ltac:(lra)) as R2.
  pose proof (type7_near ideal_pow ideal_log (fun x => x) (2 * u) u ideal_accurate ltac:(lra) ideal_log_accurate ltac:(lra) one one one one one one F1 F1 F1 F1 F1 ltac:(fin)) as H.
  cbv zeta in H. rewrite !V1, ln_1, (Rpower_1 1), strain_11 in H by lra. replace (1 * 1 + 1) with 2 in H by lra.
  assert (UL : 0 <= u * log_10 2 <= u * 1) by (split; [apply Rmult_le_pos|apply Rmult_le_compat_l]; lra).
  eapply some_weaken; [apply H; rewrite ?Rmult_0_r, ?Rabs_R0; num|lra|num].
Qed.
Lemma case8 : some_near (calc 8 [one; two; one; one; one] one) 5 n40.
Proof.
  vals. pose proof (type8_near ideal_pow ideal_log (fun x => x) (2 * u) ideal_accurate ltac:(lra) one two one one one one F1 ltac:(fin) F1 F1 F1 F1) as H.
  cbv zeta in H. rewrite !V1, !V2 in H. replace (1 * 1 + 1) with 2 in H by lra. rewrite Rpower_two in H by lra. rewrite !(Rabs_pos_eq (1 * 1)), !(Rabs_pos_eq 1) in H by lra.
  rewrite (Rabs_pos_eq (ln 2)) in H by lra.
  assert (Q : 0 <= ln 2 * (3 * u * (1 * 1 + 1) + tiny) <= 1 * (7 * u)) by (split; [apply Rmult_le_pos|apply Rmult_le_compat]; lra).
  pose proof (relative_small (2 * u + ln 2 * (3 * u * (1 * 1 + 1) + tiny)) ltac:(lra)) as R2.
  eapply some_weaken; [apply H; num|lra|num].
Qed.
Lemma strain_half : strain 1 (- / 2) = 3. Proof. unfold strain. rewrite (Rabs_left (- / 2)), !Rabs_pos_eq by lra. field. Qed.
Lemma case108 : some_near (calc 108 [one] half) (/ 2) n40.
Proof.
  vals. pose proof (type108_near ideal_pow ideal_log (fun x => x) (2 * u) ideal_accurate ltac:(lra) one half F1 ltac:(num) FH) as H.
  cbv zeta in H. rewrite !V1, !VH in H. replace (1 - / 2) with (/ 2) in H by lra. rewrite Rinv_1, !(Rpower_1 (/ 2)) in H by lra.
  replace (1 - / 2) with (/ 2) in H by lra. rewrite strain_half, !(Rpower_1 (/ 2)) in H by lra. unfold Rdiv in H. rewrite ?Rinv_1, ?Rmult_1_r in H.
  set (l := Rabs (ln (/ 2))) in *. assert (L0 : 0 <= l) by apply Rabs_pos.
  assert (UL : 0 <= u * l <= u * 1) by (split; [apply Rmult_le_pos|apply Rmult_le_compat_l]; lra).
  pose proof (relative_small (2 * u + u * (l + 8)) ltac:(lra)) as R1. 
  pose proof (relative_small (2 * u + (u * l + 4 * ((2 * relative (2 * u + u * (l + 8)) + 2 * u) * 3))) ltac:(lra)) as R2.
  eapply some_weaken; [apply H; lra|lra|lra].
Qed.

(** The reverse curves. *)
Lemma caser1 : some_near (calc (-1) [half] two) 4 n40.
Proof.
  vals. pose proof (type_m1_near ideal_pow ideal_log (fun x => x) (2 * u) ideal_accurate ltac:(lra) half FH ltac:(num) two ltac:(fin)) as H.
  cbv zeta in H. unfold Rdiv in H. rewrite !V2, !VH, !inv_half, Rpower_two in H by lra. set (l := Rabs (ln 2)) in *. assert (L0 : 0 <= l) by apply Rabs_pos.
  assert (UL : 0 <= u * l <= u * 1) by (split; [apply Rmult_le_pos|apply Rmult_le_compat_l]; lra).
  pose proof (relative_small (2 * u + u * l * 2) ltac:(lra)) as R1. eapply some_weaken; [apply H; lra|lra|lra].
Qed.
(** Errors of a square. *)
Lemma square_error d : / 2 <= d <= 2 -> 0 <= root_error (2 * u) (/ 2) d <= 20 * u /\ nth_root (/ 2) d = d * d /\
  0 <= back_error (2 * u) (/ 2) 1 1 d <= n40.
Proof.
  vals. intros D. assert (LD : 0 <= Rabs (ln d) <= 1).
  { split; [apply Rabs_pos|]. apply Rabs_le. split.
    - rewrite ln_Rinv in ALH by lra. rewrite Rabs_Ropp, (Rabs_pos_eq (ln 2)) in ALH by lra.
      assert (ln (/ 2) <= ln d) by (destruct (Req_dec (/ 2) d) as [<-|]; [|left; apply ln_increasing]; lra). rewrite ln_Rinv in * by lra. lra.
    - assert (ln d <= ln 2) by (destruct (Req_dec d 2) as [->|]; [|left; apply ln_increasing]; lra). lra. }
  assert (UL : 0 <= u * Rabs (ln d) <= u * 1) by (split; [apply Rmult_le_pos|apply Rmult_le_compat_l]; lra).
  assert (R : 0 <= root_error (2 * u) (/ 2) d <= 20 * u) by (unfold root_error, Rdiv; rewrite inv_half; lra).
  assert (N : nth_root (/ 2) d = d * d) by (unfold nth_root; rewrite inv_half; apply Rpower_two; lra).
  split; [exact R|split; [exact N|]]. unfold back_error. rewrite N. num. unfold Rdiv. rewrite Rinv_1.
  pose proof (relative_small (root_error (2 * u) (/ 2) d) ltac:(lra)) as R1. assert (D2 : 0 <= d * d <= 4) by nra.
  set (r := relative (root_error (2 * u) (/ 2) d)) in *. assert (0 <= (2 * r + 4 * u) * ((d * d + 1) * 1) <= (60 * u) * 5) by (split; [apply Rmult_le_pos|apply Rmult_le_compat]; lra). lra.
Qed.
Ltac square L d := vals; destruct (square_error d ltac:(lra)) as (SQ1 & SQ2 & SQ3); pose proof (ln_size d ltac:(lra)) as LND;
  pose proof (L ideal_pow ideal_log (fun x => x) (2 * u) ideal_accurate ltac:(lra) half one one (proj2 half_val) ltac:(num) (proj2 cst1) ltac:(num) (proj2 cst1) ltac:(num)) as H.
Lemma caser2 : some_near (calc (-2) [half; one; one] two) 3 n40.
Proof.
  square type_m2_near 2. specialize (H two F2). rewrite !V2, !VH, !V1, SQ2 in H. eapply some_weaken; [apply H; lra| |lra]. rewrite Rmax_right; lra.
Qed.
Lemma caser3 : some_near (calc (-3) [half; one; one; half] two) (5 / 4) n40.
Proof.
  square type_m3_near (3 / 2). specialize (H two F2 half FH). rewrite !V2, !VH, !V1 in H. replace (2 - / 2) with (3 / 2) in H by lra. rewrite SQ2 in H.
  assert (Rabs (ln (3 / 2)) <= 1). { apply Rabs_le. split; [assert (ln 1 <= ln (3 / 2)) by (left; apply ln_increasing; lra); rewrite ln_1 in *|assert (ln (3 / 2) <= ln 2) by (left; apply ln_increasing; lra)]; lra. }
  eapply some_weaken; [apply H; lra|lra|lra].
Qed.
Lemma caser6 : some_near (calc (-6) [half; one; one; half] two) (5 / 4) n40.
Proof.
  square type_m6_near (3 / 2). specialize (H two F2 half FH). rewrite !V2, !VH, !V1 in H. replace (2 - / 2) with (3 / 2) in H by lra. rewrite SQ2 in H.
  assert (Rabs (ln (3 / 2)) <= 1). { apply Rabs_le. split; [assert (ln 1 <= ln (3 / 2)) by (left; apply ln_increasing; lra); rewrite ln_1 in *|assert (ln (3 / 2) <= ln 2) by (left; apply ln_increasing; lra)]; lra. }
  eapply some_weaken; [apply H; lra|lra|lra].
Qed.
(** The break of a type 4 curve: (1 + 1)^2. *)
Lemma break4 : exists v, calc 4 [two; one; one; one; one] one = Some v /\ positive v /\ 3 <= B2R v <= 5.
Proof.
  line_case type4_upper_near. destruct (H one one F1 ltac:(lra)) as (v & E & F & N). exists v. split; [exact E|]. apply Rabs_le_inv in N. split; [split|]; [exact F|lra|lra].
Qed.
Lemma le64_of x y : finite x -> finite y -> B2R x <= B2R y -> le64 x y.
Proof. intros X Y L. destruct x, y; try discriminate; exact L. Qed.
Lemma lt64_of x y : finite x -> finite y -> B2R x < B2R y -> lt64 x y.
Proof. intros X Y L. split; [apply le64_of; try assumption; lra|]. intros C. destruct x, y; try discriminate; cbn in *; lra. Qed.
Definition nine : f64 := f64_lit 9 0.
Lemma nine_val : B2R nine = 9 /\ is_finite nine = true.
Proof. destruct (f64_lit_exact 9 0 ltac:(lia) ltac:(lia)) as (E & F). split; [unfold nine; rewrite E; cbn; lra|exact F]. Qed.
Lemma root_nine : Rpower 9 (/ 2) = 3.
Proof. replace 9 with (Rpower 3 2) by (rewrite Rpower_two; lra). rewrite Rpower_mult. replace (2 * / 2) with 1 by lra. apply Rpower_1. lra. Qed.
Lemma caser4 : some_near (calc (-4) [two; one; one; one; one] nine) 2 n40.
Proof.
  vals. destruct nine_val as (V9 & F9). destruct break4 as (v & E & PV & VV). pose proof (ln_size 9 ltac:(lra)) as L9. pose proof (Rabs_pos (ln 9)) as L0.
  pose proof (type_m4_upper_near ideal_pow ideal_log (fun x => x) (2 * u) ideal_accurate ltac:(lra) two one one F2 ltac:(num) F1 ltac:(num) F1 ltac:(num) nine F9 one one v F1 E PV
    ltac:(apply le64_of; [apply PV|exact F9|lra])) as H. rewrite !V9, !V2, !V1 in H. unfold nth_root in H. rewrite root_nine in H.
  assert (UL : 0 <= u * Rabs (ln 9) <= u * 299) by (split; [apply Rmult_le_pos|apply Rmult_le_compat_l]; lra).
  assert (R : 0 <= root_error (2 * u) 2 9 <= 200 * u) by (unfold root_error; lra). pose proof (relative_small _ ltac:(split; [apply R|lra])) as RR.
  eapply some_weaken; [apply H; lra|lra|]. unfold back_error, nth_root. rewrite root_nine. num.
Qed.
Lemma caser4_line : some_near (calc (-4) [two; one; one; one; one] half) (/ 2) n40.
Proof.
  vals. destruct break4 as (v & E & PV & VV).
  pose proof (type_m4_lower_near ideal_pow ideal_log (fun x => x) two one one half FH one one v F1 ltac:(num) F1 E PV ltac:(apply lt64_of; [exact FH|apply PV|lra]) ltac:(num)) as H.
  rewrite !VH, !V1 in H. eapply some_weaken; [exact H|lra|num].
Qed.
Lemma break5 : Bplus mode_NE (Bmult mode_NE one half) half = one /\ Bplus mode_NE (Bmult mode_NE one one) one = two.
Proof. split; apply B2SF_inj; vm_compute; reflexivity. Qed.
Lemma caser5 : some_near (calc (-5) [half; one; one; one; half; half; half] two) (5 / 4) n40.
Proof.
  square type_m5_upper_near (3 / 2). specialize (H two F2 one half half half). rewrite (proj1 break5) in H. specialize (H ltac:(apply le64_of; try assumption; num) FH).
  rewrite !V2, !VH, !V1 in H. replace (2 - / 2) with (3 / 2) in H by lra. rewrite SQ2 in H.
  assert (Rabs (ln (3 / 2)) <= 1). { apply Rabs_le. split; [assert (ln 1 <= ln (3 / 2)) by (left; apply ln_increasing; lra); rewrite ln_1 in *|assert (ln (3 / 2) <= ln 2) by (left; apply ln_increasing; lra)]; lra. }
  eapply some_weaken; [apply H; lra|lra|lra].
Qed.
Lemma caser5_line : some_near (calc (-5) [half; one; one; one; one; one; one] half) (- / 2) n40.
Proof.
  vals. pose proof (type_m5_lower_near ideal_pow ideal_log (fun x => x) half one one half FH one one one one) as H. rewrite (proj2 break5) in H.
  specialize (H ltac:(apply lt64_of; try assumption; num) F1 ltac:(num) F1). rewrite !VH, !V1 in H. replace ((/ 2 - 1) / 1) with (- / 2) in H by lra.
  rewrite !Rabs_left in H by lra. eapply some_weaken; [apply H; lra|lra|lra].
Qed.
Lemma caser7 : some_near (calc (-7) [one; one; one; one; one] two) 9 n40.
Proof.
  vals. pose proof (ln_size 9 ltac:(lra)) as L9. pose proof (Rabs_pos (ln 9)) as L0.
  pose proof (type_m7_near ideal_pow ideal_log (fun x => x) (2 * u) ideal_accurate ltac:(lra) one one one one one two F1 ltac:(num) F1 ltac:(num) F1 ltac:(num) F1 F1 F2) as H.
  cbv zeta in H. rewrite !V1, !V2 in H. replace ((2 - 1) / 1) with 1 in H by lra. rewrite (Rpower_1 10) in H by lra. replace ((10 - 1) / 1) with 9 in H by lra.
  replace (10 - 1) with 9 in H by lra. rewrite Rinv_1, (Rpower_1 9) in H by lra. replace (2 - 1) with 1 in H by lra. rewrite (Rabs_pos_eq 1) in H by lra.
  assert (S : strain 10 (- (1)) = 11 / 9). { unfold strain. rewrite (Rabs_left (- (1))), !Rabs_pos_eq by lra. field. } rewrite S in H.
  assert (UL : 0 <= u * Rabs (ln 9) <= u * 299) by (split; [apply Rmult_le_pos|apply Rmult_le_compat_l]; lra).
  pose proof (relative_small (2 * u + 4 * (3 * u * 1 + bpow radix2 (-1055))) ltac:(lra)) as R1. set (t := relative (2 * u + 4 * (3 * u * 1 + bpow radix2 (-1055)))) in *.
  pose proof (relative_small (2 * u + (u * Rabs (ln 9) + 4 * ((2 * t + 2 * u) * (11 / 9)) + 8 * u) / 1) ltac:(lra)) as R2.
  eapply some_weaken; [apply H; lra|lra|lra].
Qed.
Lemma caser8 : some_near (calc (-8) [half; two; one; half; one] two) (/ 2) n40.
Proof.
  vals. pose proof log2_range as LR. assert (LP : / 10 <= log_10 2).
  { unfold log_10. pose proof ln10_up. pose proof ln10_low. pose proof ln2_lower. apply Rmult_le_reg_r with (ln 10); [lra|]. unfold Rdiv. rewrite Rmult_assoc, Rinv_l by lra. lra. }
  pose proof (type_m8_near ideal_pow ideal_log (fun x => x) u ideal_log_accurate ltac:(lra) half two one half one two FH ltac:(num) ltac:(fin) ltac:(num) F1 ltac:(num) FH ltac:(num) F1 F2) as H.
  cbv zeta in H. rewrite !V1, !V2, !VH in H. replace (2 - 1) with 1 in H by lra. replace (1 / / 2) with 2 in H by lra. replace (log_10 2 / log_10 2) with 1 in H by (field; lra).
  rewrite ln_1, Rabs_R0 in H. rewrite !(Rabs_pos_eq 1), !(Rabs_pos_eq (log_10 2)), !(Rabs_pos_eq (/ 2)) in H by lra.
  assert (W : 0 <= 2 * (2 * u * log_10 2 + 8 * u) / log_10 2 <= 200 * u).
  { assert (0 <= u * log_10 2 <= u * 1) by (split; [apply Rmult_le_pos|apply Rmult_le_compat_l]; lra).
    assert (0 <= / log_10 2 <= 10). { split; [left; apply Rinv_0_lt_compat; lra|]. rewrite <- (Rinv_inv 10). apply Rinv_le_contravar; lra. }
    unfold Rdiv. replace (200 * u) with ((20 * u) * 10) by lra. split; [apply Rmult_le_pos|apply Rmult_le_compat]; lra. }
  eapply some_weaken; [apply H; lra|lra|lra].
Qed.
Lemma caser108 : some_near (calc (-108) [one] half) (/ 2) n40.
Proof.
  vals. pose proof (type_m108_near ideal_pow ideal_log (fun x => x) (2 * u) ideal_accurate ltac:(lra) one half F1 ltac:(fin)) as H.
  cbv zeta in H. rewrite !V1, !VH in H. rewrite (Rpower_1 (/ 2)) in H by lra. replace (1 - / 2) with (/ 2) in H by lra.
  rewrite strain_half, (Rpower_1 (/ 2)), (Rabs_pos_eq 1), !Rmult_1_l in H by lra. replace (1 - / 2) with (/ 2) in H by lra.
  pose proof (relative_small (2 * u) ltac:(lra)) as R1. set (r := (2 * relative (2 * u) + 2 * u) * 3) in *.
  assert (RR : 0 <= r <= 24 * u) by (unfold r; lra). pose proof (relative_small (2 * u + 2 * r * 1) ltac:(lra)) as R2.
  eapply some_weaken; [apply H; lra|lra|lra].
Qed.
(** A correctly rounded exponential, and the sigmoid of strength 1 with it. *)
Definition ideal_exp (x : f64) : f64 := round64 (exp (B2R x)).
Lemma ideal_exp_accurate : accurate_exp (2 * u) ideal_exp.
Proof.
  intros x F X. unfold ideal_exp. pose proof (exp_pos (B2R x)) as P. pose proof u_pos as U. apply Rabs_le_inv in X. pose proof ln2_lower as L2.
  assert (B : bpow radix2 (-1000) <= exp (B2R x) <= huge).
  { split; apply Rnot_lt_le; intros C; apply ln_increasing in C; try apply bpow_gt_0; try exact P; rewrite ln_exp, ln_bpow in C; [assert (IZR (-1000) * ln 2 <= - 650) by lra|assert (650 <= IZR 1000 * ln 2) by lra]; lra. }
  destruct (round64_rel (exp (B2R x))) as (FR & ER).
  - right. rewrite Rabs_pos_eq by lra. eapply Rle_trans; [|apply B]. apply bpow_le. lia.
  - rewrite Rabs_pos_eq by lra. apply B.
  - rewrite (Rabs_pos_eq (exp _)) in ER by lra. destruct (ln_close _ _ u P ltac:(lra) ER) as (R0 & L). rewrite ln_exp in L. split; [now split|exact L].
Qed.
Notation calc_exp := (eval_parametric (f64_ops ideal_pow ideal_log ideal_exp)).
Lemma exp1_range : / 3 <= exp (- (1) * 1) <= / 2.
Proof.
  replace (- (1) * 1) with (- (1)) by ring. rewrite exp_Ropp. pose proof exp_le_3. pose proof (exp_ineq1 1 ltac:(lra)).
  split; apply Rinv_le_contravar; lra.
Qed.
Lemma logistic1_range : / 6 <= logistic 1 1 <= / 4.
Proof.
  pose proof exp1_range. unfold logistic, Rdiv. rewrite Rmult_1_l. assert (/ (1 + / 2) <= / (1 + exp (- (1) * 1))) by (apply Rinv_le_contravar; lra).
  assert (/ (1 + exp (- (1) * 1)) <= / (1 + / 3)) by (apply Rinv_le_contravar; lra).
  replace (/ (1 + / 2)) with (2 / 3) in * by lra. replace (/ (1 + / 3)) with (3 / 4) in * by lra. lra.
Qed.
Lemma strain1 : 0 <= sigmoid_strain (2 * u) 1 <= 54 * u.
Proof.
  vals. pose proof logistic1_range as LR. unfold sigmoid_strain, logistic_error. rewrite (Rabs_pos_eq 1), (Rabs_pos_eq (logistic 1 1)) by lra. pose proof (relative_small (2 * u + 8 * u * 1 + tiny) ltac:(lra)) as RS.
  set (n := relative (2 * u + 8 * u * 1 + tiny) / 3 + 4 * u). assert (N : 0 <= n <= 9 * u) by (unfold n; lra). clearbody n.
  assert (0 < / logistic 1 1 <= 6). { split; [apply Rinv_0_lt_compat; lra|]. rewrite <- (Rinv_inv 6). apply Rinv_le_contravar; lra. }
  replace (54 * u) with ((9 * u) * 6) by lra. split; [apply Rmult_le_pos|apply Rmult_le_compat]; lra.
Qed.
Lemma case109 : some_near (calc_exp 109 [one] one) 1 n40.
Proof.
  vals. pose proof strain1 as S1. pose proof (type109_near ideal_pow ideal_log ideal_exp (2 * u) ideal_exp_accurate ltac:(lra) one one F1 ltac:(num) ltac:(num) F1 ltac:(num)) as H.
  cbv zeta in H. rewrite !V1 in H. rewrite (Rabs_pos_eq 1) in H by lra. eapply some_weaken; [apply H; lra| |lra].
  destruct (type109_ends 1 ltac:(lra)) as (_ & E & _). rewrite type109_val in E by lra. now injection E.
Qed.
(** The reverse curve does not give 1 back (C61). *)
Lemma caser109 : some_near (calc_exp (-109) [one] one) ((/ ln 10 + 1) / 2) n40.
Proof.
  vals. pose proof strain1 as S1. pose proof logistic1_range as LR. pose proof exp1_range as ER.
  pose proof (type_m109_near ideal_pow ideal_log ideal_exp (2 * u) ideal_exp_accurate ltac:(lra) u ideal_log_accurate ltac:(lra) one one F1 ltac:(num) ltac:(num) F1 ltac:(num)) as H.
  cbv zeta in H. rewrite !V1 in H. rewrite (Rabs_pos_eq 1) in H by lra. set (W := 2 * logistic 1 1 * (1 - / 2) + / 2) in *.
  assert (WL : 2 / 3 <= W <= 3 / 4) by (unfold W; lra). assert (WW : / 6 <= W * (1 - W)) by (assert (2 / 3 * / 4 <= W * (1 - W)) by (apply Rmult_le_compat; lra); lra).
  assert (P : 0 <= (2 * sigmoid_strain (2 * u) 1 + 8 * u) / (W * (1 - W)) <= (116 * u) * 6).
  { assert (0 < / (W * (1 - W)) <= 6) by (split; [apply Rinv_0_lt_compat; lra|rewrite <- (Rinv_inv 6); apply Rinv_le_contravar; lra]). split; [apply Rmult_le_pos|apply Rmult_le_compat]; lra. }
  assert (LV : log_10 ((1 - W) / W) = - / ln 10).
  { replace ((1 - W) / W) with (exp (- (1))).
    - unfold log_10. rewrite ln_exp. unfold Rdiv. ring.
    - replace (- (1)) with (- (1) * 1) by ring. unfold W, logistic, Rdiv. pose proof (exp_pos (- (1) * 1)). field. split; lra. }
  rewrite LV in H. pose proof ln10_low as L10l. assert (IL : 0 < / ln 10 <= / 2) by (split; [apply Rinv_0_lt_compat; lra|apply Rinv_le_contravar; lra]).
  rewrite Rabs_Ropp, (Rabs_pos_eq (/ ln 10)) in H by lra. eapply some_weaken; [apply H; lra|lra|].
  assert (0 <= (u + 2 * u) * / ln 10 <= (u + 2 * u) * / 2) by (split; [apply Rmult_le_pos|apply Rmult_le_compat_l]; lra). lra.
Qed.
