(** Sigmoids with an infinite parameter (C92). *)
From Coq Require Import ZArith List Reals Lia Lra Psatz.
From Flocq Require Import Core IEEE754.BinarySingleNaN.
From Verif Require Import M_Base M_F64 M_Curve M_CurveF64 M_CurveReal S_F64 S_Exact S_Order P_S15 P_F64 P_Curve3 P_Exact P_Exact2 P_Exact3 P_Order P_Order2 P_Order3 P_Order4 P_Pow.
Import ListNotations.
Open Scope R_scope.

Definition below : f64 := f64_lit 9007199254740991 (-54).
Definition above : f64 := f64_lit 4503599627370497 (-53).
Lemma below_val : B2R below = / 2 - bpow radix2 (-54) /\ is_finite below = true.
Proof.
  destruct (f64_lit_exact 9007199254740991 (-54) ltac:(lia) ltac:(lia)) as (V & F). split; [|exact F]. unfold below. rewrite V.
  change (/ 2) with (bpow radix2 (-1)). change (-1)%Z with (53 + -54)%Z. rewrite bpow_plus. change (bpow radix2 53) with 9007199254740992. lra.
Qed.
Lemma above_val : B2R above = / 2 + bpow radix2 (-53) /\ is_finite above = true.
Proof.
  destruct (f64_lit_exact 4503599627370497 (-53) ltac:(lia) ltac:(lia)) as (V & F). split; [|exact F]. unfold above. rewrite V.
  change (/ 2) with (bpow radix2 (-1)). change (-1)%Z with (52 + -53)%Z. rewrite bpow_plus. change (bpow radix2 52) with 4503599627370496. lra.
Qed.
Lemma lt_half r : lt64 r half -> le64 r below.
Proof.
  intros L. apply ltb_lt64, ltb_iff in L as (N & _ & L). destruct half_val as (VH & FH). rewrite (ov_fin half), VH in L by exact FH.
  destruct below_val as (V & F). apply le64_ov. split; [exact N|]. split; [reflexivity|]. rewrite (ov_fin below), V by exact F.
  destruct (is_finite r) eqn:FR.
  - rewrite ov_fin in * by exact FR.
    assert (H : B2R r <= pred radix2 (SpecFloat.fexp 53 1024) (bpow radix2 (-1))).
    { apply pred_ge_gt; [apply vfexp|apply generic_format_B2R|apply generic_format_bpow; cbn; lia|rewrite bpow_half; lra]. }
    rewrite pred_bpow, bpow_half in H by apply vfexp. exact H.
  - destruct (fin_cases r N FR); subst; cbn [ov] in *; pose proof top_big; [|lra]. pose proof (bpow_gt_0 radix2 (-54)).
    assert (bpow radix2 (-54) < 1) by (change 1 with (bpow radix2 0); apply bpow_lt; lia). lra.
Qed.
Lemma gt_half r : lt64 half r -> le64 above r.
Proof.
  intros L. apply ltb_lt64, ltb_iff in L as (_ & N & L). destruct half_val as (VH & FH). rewrite (ov_fin half), VH in L by exact FH.
  destruct above_val as (V & F). apply le64_ov. split; [reflexivity|]. split; [exact N|]. rewrite (ov_fin above), V by exact F.
  destruct (is_finite r) eqn:FR.
  - rewrite ov_fin in * by exact FR.
    assert (H : succ radix2 (SpecFloat.fexp 53 1024) (bpow radix2 (-1)) <= B2R r).
    { apply succ_le_lt; [apply vfexp|apply generic_format_bpow; cbn; lia|apply generic_format_B2R|rewrite bpow_half; lra]. }
    rewrite succ_eq_pos in H by apply bpow_ge_0. rewrite ulp_bpow, bpow_half in H. exact H.
  - destruct (fin_cases r N FR); subst; cbn [ov] in *; pose proof top_big; [lra|].
    assert (bpow radix2 (-53) < 1) by (change 1 with (bpow radix2 0); apply bpow_lt; lia). lra.
Qed.
Local Notation t r := (Bminus mode_NE (Bmult mode_NE two r) one).
Lemma t_mono r r' : le64 r r' -> le64 (t r) (t r').
Proof. intros L. apply minus_mono; [|reflexivity]. apply mult_mono; [exact pos_two|exact L]. Qed.
Lemma t_neg r : lt64 r half -> lt64 (t r) zero.
Proof.
  intros L. pose proof (t_mono _ _ (lt_half r L)) as M. assert (Z : lt64 (t below) zero) by (apply ltb_lt64; vm_compute; reflexivity).
  destruct Z as (Z1 & Z2). split; [now apply le64_trans with (t below)|]. intros H. apply Z2. now apply le64_trans with (t r).
Qed.
Lemma t_pos r : lt64 half r -> lt64 zero (t r).
Proof.
  intros L. pose proof (t_mono _ _ (gt_half r L)) as M. assert (Z : lt64 zero (t above)) by (apply ltb_lt64; vm_compute; reflexivity).
  destruct Z as (Z1 & Z2). split; [now apply le64_trans with (t above)|]. intros H. apply Z2. now apply le64_trans with (t r).
Qed.
Lemma inf_neg s x : lt64 x zero -> Bmult mode_NE (B754_infinity s) x = B754_infinity (negb s).
Proof.
  intros L. apply ltb_lt64, ltb_iff in L as (N & _ & L). change (ov zero) with 0 in L. destruct x as [z|[|]| |[|] m e B]; try discriminate N; try (now destruct s).
  - cbn in L. lra.
  - cbn [ov] in L. pose proof top_pos. lra.
  - exfalso. cbn [ov] in L. pose proof (F2R_ge_0 radix2 (Float radix2 (Zpos m) e) ltac:(cbn; lia)). change (B2R (B754_finite false m e B : f64)) with (F2R (Float radix2 (Zpos m) e)) in L. lra.
Qed.
Lemma inf_pos s x : lt64 zero x -> Bmult mode_NE (B754_infinity s) x = B754_infinity s.
Proof.
  intros L. apply ltb_lt64, ltb_iff in L as (_ & N & L). change (ov zero) with 0 in L. destruct x as [z|[|]| |[|] m e B]; try discriminate N; try (now destruct s).
  - cbn in L. lra.
  - cbn [ov] in L. pose proof top_pos. lra.
  - exfalso. cbn [ov] in L. pose proof (F2R_le_0 radix2 (Float radix2 (Zneg m) e) ltac:(cbn; lia)). change (B2R (B754_finite true m e B : f64)) with (F2R (Float radix2 (Zneg m) e)) in L. lra.
Qed.
Lemma infinite_sigmoid pow lg ex s r : ex (B754_infinity false) = B754_infinity false -> ex (B754_infinity true) = zero -> nan_keeping ex -> 
  (lt64 r half -> eval_parametric (f64_ops pow lg ex) 109 [B754_infinity s] r = Some zero) /\
  (lt64 half r -> eval_parametric (f64_ops pow lg ex) 109 [B754_infinity s] r = Some one) /\
  eval_parametric (f64_ops pow lg ex) 109 [B754_infinity s] half = Some B754_nan.
Proof.
  intros EP EN NK. ev. unfold sigmoid_factory, sigmoid_base. ev. change (f64_cst L1) with one.
  assert (B : Bmult mode_NE (Bopp (B754_infinity s)) one = B754_infinity (negb s)) by (destruct s; vm_compute; reflexivity).
  rewrite B. repeat split.
  - intros L. change (Bopp (B754_infinity s)) with (B754_infinity (negb s) : f64). rewrite (inf_neg _ _ (t_neg r L)).
    destruct s; cbn [negb]; rewrite EP, EN; f_equal; apply B2SF_inj; vm_compute; reflexivity.
  - intros L. change (Bopp (B754_infinity s)) with (B754_infinity (negb s) : f64). rewrite (inf_pos _ _ (t_pos r L)).
    destruct s; cbn [negb]; rewrite ?EP, ?EN; f_equal; apply B2SF_inj; vm_compute; reflexivity.
  - assert (Z : t half = zero) by (apply B2SF_inj; vm_compute; reflexivity). rewrite Z. replace (Bmult mode_NE (Bopp (B754_infinity s)) zero) with (B754_nan : f64) by (now destruct s).
    unfold nan_keeping, nan in NK. rewrite NK. destruct s; cbn [negb]; rewrite ?EP, ?EN; f_equal; apply B2SF_inj; vm_compute; reflexivity.
Qed.

Lemma nan_sigmoid pow lg ex r : nan_keeping ex -> eval_parametric (f64_ops pow lg ex) 109 [B754_nan] r = Some B754_nan.
Proof.
  intros NK. ev. unfold sigmoid_factory, sigmoid_base. ev. change (f64_cst L1) with one. change (Bmult mode_NE (Bopp (B754_nan : f64)) one) with (B754_nan : f64).
  unfold nan_keeping, nan in NK. now rewrite NK.
Qed.
Lemma best_exp_ends : best_exp (B754_infinity false) = B754_infinity false /\ best_exp (B754_infinity true) = zero /\ nan_keeping best_exp.
Proof. unfold nan_keeping, best_exp. cbn [exact ext_exp]. repeat split; try reflexivity. exact (of_ext_exact zero ltac:(discriminate)). Qed.
Lemma over_inf (y : f64) s : let q := Bdiv mode_NE (Bplus mode_NE (Bdiv mode_NE y (B754_infinity s)) one) two in
  (is_finite y = true -> q = half) /\ (is_finite y = false -> q = B754_nan).
Proof.
  cbv zeta. split; intros F; (destruct y as [z|z| |z m e B]; try discriminate F); cbn [Bdiv]; try (destruct z, s); try destruct s; apply B2SF_inj; vm_compute; reflexivity.
Qed.
Lemma infinite_reversed pow lg ex s r :
  eval_parametric (f64_ops pow lg ex) (-109) [B754_infinity s] r = Some half \/
  eval_parametric (f64_ops pow lg ex) (-109) [B754_infinity s] r = Some B754_nan.
Proof.
  ev. unfold inverted_sigmoid_factory, inverted_sigmoid_base. ev. change (f64_cst L1) with one.
  match goal with |- context [Bdiv mode_NE (Bplus mode_NE (Bdiv mode_NE ?y (B754_infinity s)) one) two] => destruct (over_inf y s) as (A & B); destruct (is_finite y) eqn:F end.
  - left. f_equal. now apply A.
  - right. f_equal. now apply B.
Qed.
Lemma infinite_reversed_sample s : eval_parametric (f64_ops best_pow best_log10 best_exp) (-109) [B754_infinity s] half = Some half.
Proof.
  ev. unfold inverted_sigmoid_factory, inverted_sigmoid_base, sigmoid_base. ev. change (f64_cst L1) with one.
  assert (B : Bmult mode_NE (Bopp (B754_infinity s)) one = B754_infinity (negb s)) by (destruct s; vm_compute; reflexivity). rewrite B.
  assert (E : forall b, best_exp (B754_infinity b) = if b then zero else B754_infinity false) by (intros []; apply best_exp_ends).
  rewrite E.
  match goal with |- context [best_log10 ?y] => assert (Y : y = one) by (destruct s; apply B2SF_inj; vm_compute; reflexivity) end.
  rewrite Y. f_equal. apply over_inf. rewrite is_finite_Bopp. unfold best_log10.
  replace (ext_log10 (exact one)) with (exact zero).
  - now rewrite (of_ext_exact zero ltac:(discriminate)).
  - change one with (f64_cst L1). rewrite exact_one. cbn [ext_log10].
    rewrite P_Pow.Rltb_t by lra. rewrite ln_1. unfold Rdiv. rewrite Rmult_0_l. reflexivity.
Qed.
