(** The order kept by a correctly rounded math library, and sample curves (C90-C92). *)
From Coq Require Import ZArith List Reals Lia Lra Psatz.
From Flocq Require Import Core IEEE754.BinarySingleNaN.
From Verif Require Import M_Base M_F64 M_Curve M_CurveF64 M_CurveReal S_F64 S_Exact S_Order S_Pow
  P_S15 P_F64 P_Curve3 P_Ideal P_Exact P_Exact2 P_Exact3 P_Pow P_Order P_Order2 P_Order3.
Import ListNotations.
Open Scope R_scope.

(** Order of extended reals; NaN is related to nothing. *)
Definition ext_le (x y : ext) : Prop :=
  match x, y with
  | NaN, _ | _, NaN => False
  | NInf, _ | _, PInf => True
  | Fin a, Fin b => a <= b
  | _, _ => False
  end.
Lemma le64_ext x y : le64 x y <-> ext_le (exact x) (exact y).
Proof.
  destruct x as [s|[|]| |s m e B], y as [s'|[|]| |s' m' e' B']; try (rewrite le64_fin by reflexivity); cbn [exact ext_le]; try tauto; try (split; [intros _; exact I|intros _; exact I]); reflexivity.
Qed.
Lemma ext_le_exact x y : ext_le x y -> le64 (of_ext x) (of_ext y).
Proof.
  destruct x as [a| | |], y as [b| | |]; cbn [ext_le of_ext]; try tauto; try (intros _; exact I).
  - apply round64_mono.
  - intros _. destruct (round64_ov a) as (_ & N). destruct (round64 a) as [|[|]| |]; try discriminate; exact I.
  - intros _. destruct (round64_ov b) as (_ & N). destruct (round64 b) as [|[|]| |]; try discriminate; exact I.
Qed.
Lemma rounded_mono (x y : f64) u v : exact x = rounded u -> exact y = rounded v -> ext_le u v -> le64 x y.
Proof. intros X Y L. apply le64_ext. rewrite X, Y, <- !exact_of_ext. now apply le64_ext, ext_le_exact. Qed.
Lemma exact_zero64 : exact zero = rounded (Fin 0).
Proof. now rewrite rounded_0. Qed.
Lemma ln10_pos : 0 < ln 10. Proof. rewrite <- ln_1. apply ln_increasing; lra. Qed.
Lemma exact_log_monotone lg : exact_log10 lg -> monotone_log lg.
Proof.
  intros H x y Z L. apply (rounded_mono _ _ _ _ (proj1 (H x)) (proj1 (H y))). apply le64_ext in Z, L. cbn [exact zero B2R] in Z.
  destruct (exact x) as [a| | |], (exact y) as [b| | |]; cbn [ext_le] in *; try contradiction; try (cbn [ext_log10 ext_le]; exact I).
  - cbn [ext_log10]. destruct (Rltb 0 a) eqn:A.
    + unfold Rltb in A. destruct (Rlt_dec 0 a) as [P|]; [|discriminate]. rewrite (Rltb_t 0 b) by lra. cbn [ext_le].
      apply Rmult_le_compat_r; [left; apply Rinv_0_lt_compat, ln10_pos|]. destruct L as [L|L]; [left; now apply ln_increasing|right; now rewrite L].
    + unfold Rltb in A. destruct (Rlt_dec 0 a) as [|P]; [discriminate|]. replace a with 0 by lra. rewrite Reqb_t.
      destruct (Rltb 0 b) eqn:B; [exact I|]. unfold Rltb in B. destruct (Rlt_dec 0 b) as [|Q]; [discriminate|]. replace b with 0 by lra. rewrite Reqb_t. exact I.
  - cbn [ext_log10]. destruct (Rltb 0 a) eqn:A; [exact I|]. unfold Rltb in A. destruct (Rlt_dec 0 a) as [|P]; [discriminate|]. replace a with 0 by lra. rewrite Reqb_t. exact I.
Qed.
Lemma exact_exp_monotone ex : exact_exp ex -> monotone_exp ex.
Proof.
  intros H x y L. apply le64_ext in L.
  split; [apply (rounded_mono _ _ _ _ exact_zero64 (H x))|apply (rounded_mono _ _ _ _ (H x) (H y))];
    destruct (exact x) as [a| | |], (exact y) as [b| | |]; cbn [ext_le ext_exp] in *; try contradiction; try exact I; try lra;
    try (left; apply exp_pos); try (right; reflexivity).
  destruct L as [L|L]; [left; now apply exp_increasing|right; now rewrite L].
Qed.
Lemma exact_pow_exponent pow : exact_pow pow -> monotone_exponent pow.
Proof.
  intros H b x y F B L.
  assert (V : 1 < B2R b).
  { apply ltb_lt64, ltb_iff in B as (_ & _ & B). rewrite !ov_fin in B by (exact F || reflexivity). rewrite one_val in B. exact B. }
  assert (NZ : b <> neg_zero) by (intros ->; cbn in V; lra).
  assert (EX : forall z, exact (pow b z) = rounded (ext_pow (Fin (B2R b)) (exact z))).
  { intros z. rewrite <- (exact_fin b) by exact F. apply H. intros E. now elim NZ. }
  assert (AB : 1 < Rabs (B2R b)) by (rewrite Rabs_pos_eq; lra).
  assert (EP : forall z, exact z <> NaN -> ext_pow (Fin (B2R b)) (exact z) = match exact z with Fin w => Fin (exp (w * ln (B2R b))) | PInf => PInf | NInf => Fin 0 | NaN => NaN end).
  { intros z N. destruct (exact z) as [w| | |]; [| | |now elim N]; apply pow_iff; constructor; lra. }
  assert (LB : 0 < ln (B2R b)) by (rewrite <- ln_1; apply ln_increasing; lra).
  apply le64_ext in L. assert (NX : exact x <> NaN) by (now destruct (exact x)). assert (NY : exact y <> NaN) by (now destruct (exact x), (exact y)).
  split; [apply (rounded_mono _ _ _ _ exact_zero64 (EX x)); rewrite EP by exact NX|apply (rounded_mono _ _ _ _ (EX x) (EX y)); rewrite !EP by assumption];
    destruct (exact x) as [w| | |], (exact y) as [z| | |]; cbn [ext_le] in *; try contradiction; try exact I; try lra; try (left; apply exp_pos).
  assert (M : w * ln (B2R b) <= z * ln (B2R b)) by nra. destruct M as [M|M]; [left; now apply exp_increasing|right; now rewrite M].
Qed.
Lemma exact_pow_one pow : exact_pow pow -> one_pow pow.
Proof.
  intros H y. apply exact_one_iff. rewrite H by (intros E; apply (f_equal B2SF) in E; vm_compute in E; discriminate E).
  rewrite (exact_fin one), one_val by reflexivity. rewrite (proj1 (pow_iff _ _ _) (pow_1_any (exact y))).
  change (rounded (ext_lit L1) = Fin 1). rewrite <- exact_cst. rewrite exact_fin by reflexivity. f_equal. exact one_val.
Qed.

(** ** Sample curves *)
Notation best := (f64_ops best_pow best_log10 best_exp).
Ltac cmp := apply geb_iff; vm_compute; reflexivity.
Ltac lcmp := apply ltb_lt64; vm_compute; reflexivity.
Lemma best_mono : monotone_pow best_pow /\ monotone_exponent best_pow /\ one_pow best_pow /\ monotone_log best_log10 /\ monotone_exp best_exp.
Proof.
  destruct best_exact as (P & L & E).
  exact (conj (exact_pow_monotone _ P) (conj (exact_pow_exponent _ P) (conj (exact_pow_one _ P) (conj (exact_log_monotone _ L) (exact_exp_monotone _ E))))).
Qed.
Lemma of_ext_exact x : x <> neg_zero -> of_ext (exact x) = x.
Proof.
  intros N. destruct (exact_case x) as [(F & E)|[->|[->| ->]]]; try reflexivity. rewrite E. cbn [of_ext].
  assert (EQ : exact (round64 (B2R x)) = Fin (B2R x)).
  { pose proof (exact_of_ext (Fin (B2R x))) as H. cbn [of_ext] in H. rewrite H. cbn [rounded]. unfold nearest.
    rewrite round_generic by (try apply valid_rnd_N; apply (generic_format_B2R 53 1024 x)). rewrite Rlt_bool_true; [reflexivity|]. apply (abs_B2R_lt_emax 53 1024 x). }
  apply exact_fin_inv in EQ as (FR & V). destruct (Req_dec (B2R x) 0) as [Z|Z].
  - pose proof (round64_nz (B2R x)) as NR. assert (forall w : f64, is_finite w = true -> B2R w = 0 -> w <> neg_zero -> w = zero) as U.
    { intros [[|]|[|]| |s m e B] FW VW NW; try discriminate; try reflexivity; [now elim NW|].
      exfalso. cbn in VW. apply eq_0_F2R in VW. now destruct s. }
    transitivity zero; [apply U; [exact FR|congruence|exact NR]|symmetry; now apply U].
  - apply B2R_inj; [destruct (round64 (B2R x)) as [| | |]; try discriminate; [elim Z; now rewrite <- V|reflexivity]|destruct x as [| | |]; try discriminate; [now elim Z|reflexivity]|exact V].
Qed.
Lemma nz_lit (x : f64) : B2SF x <> SpecFloat.S754_zero true -> x <> neg_zero.
Proof. intros H ->. now apply H. Qed.
Lemma best_pow_one x : positive x -> best_pow x one = x.
Proof.
  intros (F & P). unfold best_pow. rewrite (exact_fin one), one_val, (exact_fin x) by (exact F || reflexivity).
  rewrite (proj1 (pow_iff _ _ _) (pow_pos (B2R x) 1 P)). rewrite Rmult_1_l, exp_ln by exact P. rewrite <- (exact_fin x) by exact F.
  apply of_ext_exact. intros ->. cbn in P. lra.
Qed.
Lemma best_pow_zero g : positive g -> best_pow zero g = zero.
Proof.
  intros (F & P). unfold best_pow. rewrite (exact_fin g), (exact_fin zero) by (exact F || reflexivity). change (B2R zero) with 0.
  rewrite (proj1 (pow_iff _ _ _) (pow_0_pos (B2R g) P)). change (Fin 0) with (exact zero). apply of_ext_exact. discriminate.
Qed.
Lemma best_log_zero : best_log10 zero = B754_infinity true.
Proof.
  unfold best_log10. rewrite (exact_fin zero) by reflexivity. change (B2R zero) with 0. now rewrite (proj1 (log_iff _ _) log_0).
Qed.
Lemma ten_val : B2R (f64_cst L10) = 10.
Proof. destruct (cst_val L10 10 0 eq_refl ltac:(lia) ltac:(lia)) as (V & _). cbn [bpow] in V. lra. Qed.
Lemma best_log_ten : best_log10 (f64_cst L10) = one.
Proof.
  unfold best_log10. rewrite (exact_fin (f64_cst L10)) by reflexivity. rewrite ten_val. rewrite (proj1 (log_iff (Fin 10) (Fin 1))).
  - replace (Fin 1) with (exact one) by (rewrite exact_fin by reflexivity; now rewrite one_val). apply of_ext_exact, nz_lit. vm_compute. discriminate.
  - replace 10 with (Rpower 10 1) at 1 by (apply Rpower_1; lra). apply log_pos.
Qed.
Lemma best_exp_zero : best_exp zero = one.
Proof.
  unfold best_exp. rewrite (exact_fin zero) by reflexivity. change (B2R zero) with 0. cbn [ext_exp]. rewrite exp_0.
  replace (Fin 1) with (exact one) by (rewrite exact_fin by reflexivity; now rewrite one_val). apply of_ext_exact, nz_lit. vm_compute. discriminate.
Qed.
Lemma best_log_half : finite (best_log10 half) /\ lt64 (best_log10 half) zero.
Proof.
  destruct half_val as (VH & FH). destruct best_exact as (_ & BL & _). destruct (BL half) as (E & _). rewrite (exact_fin half), VH in E by exact FH.
  cbn [ext_log10] in E. rewrite Rltb_t in E by lra. apply ov_of_rounded in E as (E & N).
  assert (LH : - 1 <= ln (/ 2) / ln 10 <= - / 8).
  { assert (ln (/ 2) = - ln 2) as -> by (apply ln_Rinv; lra). pose proof ln2_lower. pose proof ln10_pos.
    assert (ln 2 < ln 10) by (apply ln_increasing; lra).
    assert (ln 10 <= 4 * ln 2). { replace (4 * ln 2) with (ln 16); [left; apply ln_increasing; lra|]. replace 16 with (2 * 2 * (2 * 2)) by lra. rewrite !ln_mult by lra. ring. }
    split.
    - apply Rmult_le_reg_r with (ln 10); [lra|]. unfold Rdiv. rewrite Rmult_assoc, Rinv_l by lra. lra.
    - apply Rmult_le_reg_r with (ln 10); [lra|]. unfold Rdiv. rewrite Rmult_assoc, Rinv_l by lra. lra. }
  assert (B : - 1 <= rne (ln (/ 2) / ln 10) <= - / 8).
  { split; [apply rne_ge; [apply (fmt_int (-1)); lia|apply LH]|apply rne_le; [|apply LH]].
    replace (- / 8) with (IZR (-1) * bpow radix2 (-3)) by (cbn; lra). apply fmt_dyadic; lia. }
  pose proof top_big. rewrite cap_small in E by (apply Rabs_lt; lra).
  split; [apply fin_of_ov; [exact N|lra]|]. apply ltb_lt64, ltb_iff. split; [exact N|]. split; [reflexivity|]. change (ov zero) with 0. lra.
Qed.
Lemma best_exp_half : lt64 (Bplus mode_NE one (best_exp (Bmult mode_NE (Bopp one) one))) two.
Proof.
  assert (M : Bmult mode_NE (Bopp one) one = Bopp one) by (apply B2SF_inj; vm_compute; reflexivity). rewrite M.
  destruct best_exact as (_ & _ & BE). pose proof (BE (Bopp one)) as E. rewrite (exact_fin (Bopp one)) in E by reflexivity. rewrite B2R_Bopp, one_val in E.
  cbn [ext_exp] in E. apply ov_of_rounded in E as (E & N). destruct half_val as (VH & FH).
  assert (X : exp (Ropp 1) <= / 2). { rewrite exp_Ropp. apply Rinv_le_contravar; [lra|]. pose proof (exp_ineq1 1 ltac:(lra)). lra. }
  assert (B : 0 <= rne (exp (Ropp 1)) <= / 2).
  { split; [apply rne_ge; [apply fmt0|left; apply exp_pos]|apply rne_le; [rewrite <- VH; apply fin_fmt|exact X]]. }
  pose proof top_big. rewrite cap_small in E by (apply Rabs_lt; lra).
  assert (L : le64 (best_exp (Bopp one)) half) by (apply le64_ov; split; [exact N|split; [reflexivity|rewrite E, (ov_fin half), VH by exact FH; lra]]).
  apply (plus_mono_r one) in L; [|reflexivity]. apply ltb_lt64. apply below with (1 := L). vm_compute. reflexivity.
Qed.

Lemma sample_reversed :
  increasing (eval_parametric best (-3) [two; one; zero; half]) /\
  increasing (eval_parametric best (-4) [one; one; zero; one; zero]) /\
  increasing (eval_parametric best (-5) [one; one; zero; one; zero; zero; zero]) /\
  increasing (eval_parametric best (-6) [two; half; Bopp one; half]) /\
  ~ increasing (eval_parametric best (-3) [two; one; Bopp one; zero]) /\
  ~ increasing (eval_parametric best (-6) [one; one; one; zero]).
Proof.
  destruct best_mono as (MP & _). assert (R1 : Bdiv mode_NE (f64_cst L1) one = one) by (apply B2SF_inj; vm_compute; reflexivity).
  assert (E1 : Bplus mode_NE (Bmult mode_NE one zero) zero = zero) by (apply B2SF_inj; vm_compute; reflexivity).
  split; [apply type_m3_mono; try assumption; try reflexivity; try exact pos_one; cmp|].
  split.
  { apply type_m4_mono; try assumption; try reflexivity; try exact pos_one; try cmp. rewrite E1. change (f64_ltb zero zero) with false. cbv iota. rewrite best_pow_zero by exact pos_one.
    intros y. ev. rewrite E1. change (f64_ltb zero zero) with false. cbv iota. rewrite R1, !best_pow_zero by exact pos_one.
    change (f64_geb zero zero) with true. replace (f64_ltb (Babs one) tol64) with false by (vm_compute; reflexivity). cbn [orb]. intros [= <-]. cmp. }
  split.
  { apply type_m5_mono; try assumption; try reflexivity; try exact pos_one; try cmp.
    - rewrite E1. discriminate.
    - left. rewrite E1. cmp.
    - rewrite E1. intros y. ev. rewrite E1. change (f64_geb zero zero) with true. cbv iota. replace (Bminus mode_NE zero zero) with zero by (apply B2SF_inj; vm_compute; reflexivity).
      change (f64_ltb zero zero) with false. replace (f64_ltb (Babs one) tol64) with false by (vm_compute; reflexivity). cbn [orb]. rewrite R1, best_pow_zero by exact pos_one. intros [= <-]. cmp. }
  split; [apply type_m6_mono; try assumption; try reflexivity; try exact pos_half; cmp|].
  split.
  - apply type_m3_not_mono; [cmp|reflexivity|lcmp].
  - apply type_m6_not_mono; [cmp|reflexivity| |lcmp]. rewrite R1. apply best_pow_zero, pos_one.
Qed.
Lemma sample_others :
  increasing_on (fun r => le64 zero r) (eval_parametric best 7 [two; one; half; one; zero]) /\
  increasing (eval_parametric best (-7) [two; one; half; Bopp one; zero]) /\
  increasing (eval_parametric best 8 [half; two; one; one; zero]) /\
  increasing_on (fun r => le64 half r) (eval_parametric best (-8) [one; f64_cst L10; two; zero; half]) /\
  increasing_on unit_interval (eval_parametric best 108 [two]) /\
  increasing_on unit_interval (eval_parametric best (-108) [two]) /\
  ~ increasing_on (fun r => le64 zero r) (eval_parametric best 7 [one; one; one; zero; zero]) /\
  ~ increasing (eval_parametric best (-8) [one; f64_cst L10; two; zero; half]).
Proof.
  destruct best_mono as (MP & MX & OP & ML & _).
  assert (B10 : positive (best_log10 (f64_cst L10))) by (rewrite best_log_ten; exact pos_one).
  split; [apply type7_mono; try assumption; try reflexivity; first [exact pos_one|exact pos_two|exact pos_half]|].
  split; [apply type_m7_mono; try assumption; try reflexivity; cmp|].
  split; [apply type8_mono; try assumption; try reflexivity; first [exact pos_one|exact pos_half|lcmp]|].
  split; [apply type_m8_mono; try assumption; try reflexivity; cmp|].
  split; [apply type108_mono; try assumption; try reflexivity; cmp|].
  split; [apply type_m108_mono; try assumption; exact pos_two|].
  split.
  - apply type7_not_mono; [apply best_pow_zero, pos_one|apply best_pow_one, pos_half|apply best_log_half|apply best_log_half].
  - apply type_m8_not_mono; try assumption; try reflexivity; try exact best_log_zero; cmp.
Qed.
Lemma sample_sigmoid :
  increasing (eval_parametric best 109 [one]) /\ increasing_on unit_interval (eval_parametric best (-109) [one]) /\
  lt64 (Bplus mode_NE one (best_exp (Bmult mode_NE (Bopp one) one))) two.
Proof.
  destruct best_mono as (_ & _ & _ & ML & ME). pose proof best_exp_half as H.
  split; [exact (sigmoid_mono _ _ _ ME _ pos_one H)|]. split; [exact (inverse_sigmoid_mono _ _ _ ME _ pos_one H ML)|exact H].
Qed.
Lemma exact_exp_zero ex : exact_exp ex -> exp_zero ex.
Proof.
  intros H s. apply exact_one_iff. rewrite H, (exact_fin (B754_zero s)) by reflexivity. change (B2R (B754_zero s)) with 0. cbn [ext_exp]. rewrite exp_0.
  change (rounded (ext_lit L1) = Fin 1). rewrite <- exact_cst. rewrite exact_fin by reflexivity. f_equal. exact one_val.
Qed.
Lemma sigmoid_cases' ex k : monotone_exp ex -> exp_zero ex -> positive k ->
  lt64 (Bplus mode_NE one (ex (Bmult mode_NE (Bopp k) one))) two \/ Bplus mode_NE one (ex (Bmult mode_NE (Bopp k) one)) = two.
Proof.
  intros ME EZ K. apply sigmoid_cases; [exact ME| |exact K]. destruct K as (F & P). destruct k as [s|s| |s m e B]; try discriminate; [cbn in P; lra|].
  destruct s; apply EZ.
Qed.
(** Either the curve is increasing or it is never finite. *)
Lemma sigmoid_dichotomy pow lg ex k : monotone_exp ex -> exp_zero ex -> positive k ->
  (lt64 (Bplus mode_NE one (ex (Bmult mode_NE (Bopp k) one))) two /\ increasing (eval_parametric (f64_ops pow lg ex) 109 [k])) \/
  (Bplus mode_NE one (ex (Bmult mode_NE (Bopp k) one)) = two /\ forall r y, eval_parametric (f64_ops pow lg ex) 109 [k] r = Some y -> ~ finite y).
Proof.
  intros ME EZ K. destruct (sigmoid_cases' ex k ME EZ K) as [H|H]; [left|right].
  - split; [exact H|]. now apply sigmoid_mono.
  - split; [exact H|]. intros r y. now apply flat_sigmoid_two.
Qed.
(** A small parameter: exp(-k) rounds to 1. *)
Lemma sample_flat : positive (f64_lit 1 (-60)) /\ Bplus mode_NE one (best_exp (Bmult mode_NE (Bopp (f64_lit 1 (-60))) one)) = two.
Proof.
  set (k := f64_lit 1 (-60)). assert (K : finite k /\ B2R k = bpow radix2 (-60)).
  { destruct (f64_lit_exact 1 (-60) ltac:(lia) ltac:(lia)) as (V & F). split; [exact F|]. rewrite Rmult_1_l in V. exact V. }
  destruct K as (F & V). pose proof (bpow_gt_0 radix2 (-60)) as P0. assert (K : positive k) by (split; [exact F|lra]). split; [exact K|].
  destruct best_mono as (_ & _ & _ & _ & ME). assert (EZ := exact_exp_zero _ (proj2 (proj2 best_exact))).
  assert (M : Bmult mode_NE (Bopp k) one = Bopp k) by (apply B2SF_inj; vm_compute; reflexivity).
  assert (G : le64 one (best_exp (Bopp k))).
  { pose proof (proj2 (proj2 best_exact) (Bopp k)) as E. rewrite (exact_fin (Bopp k)) in E by (now rewrite is_finite_Bopp). rewrite B2R_Bopp, V in E. cbn [ext_exp] in E.
    apply ov_of_rounded in E as (E & N). apply le64_ov. split; [reflexivity|]. split; [exact N|]. rewrite E, (ov_fin one), one_val by reflexivity.
    assert (X : 1 - bpow radix2 (-60) <= exp (- bpow radix2 (-60))) by (pose proof (exp_ineq1 (- bpow radix2 (-60)) ltac:(lra)); lra).
    assert (R : 1 <= rne (exp (- bpow radix2 (-60)))).
    { replace 1 with (bpow radix2 0) at 1 by reflexivity. apply round_N_ge_midp; [apply vfexp|apply generic_format_bpow; cbn; lia|].
      rewrite pred_bpow by apply vfexp. change (bpow radix2 (SpecFloat.fexp 53 1024 0)) with (bpow radix2 (-53)). change (bpow radix2 0) with 1.
      assert (bpow radix2 (-53) = 128 * bpow radix2 (-60)) by (change (-53)%Z with (7 + -60)%Z; rewrite bpow_plus; reflexivity). lra. }
    apply Rle_trans with (cap 1); [rewrite cap_small; [lra|rewrite Rabs_R1; pose proof top_big; lra]|]. now apply cap_mono. }
  destruct (sigmoid_cases' best_exp k ME EZ K) as [H|H]; [|exact H]. exfalso. rewrite M in H.
  apply (plus_mono_r one) in G; [|reflexivity]. destruct H as (_ & H). apply H.
  apply le64_trans with (2 := G). cmp.
Qed.
