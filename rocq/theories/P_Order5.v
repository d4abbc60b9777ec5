(** Order of the sigmoids with a negative parameter (C92). *)
From Coq Require Import ZArith List Reals Lia Lra Psatz.
From Flocq Require Import Core IEEE754.BinarySingleNaN.
From Verif Require Import M_Base M_F64 M_Curve M_CurveF64 S_F64 S_Exact S_Order P_S15 P_F64 P_Curve3 M_CurveReal P_Exact P_Exact2 P_Exact3 P_Order P_Order2 P_Order3 P_Order4.
Import ListNotations.
Open Scope R_scope.

Lemma div_opp_anti k x x' : positive k -> le64 x x' -> le64 (Bdiv mode_NE x' (Bopp k)) (Bdiv mode_NE x (Bopp k)).
Proof.
  intros K L. assert (I : forall s, Bdiv mode_NE (B754_infinity s) (Bopp k) = B754_infinity (negb s)).
  { destruct K as (F & P). destruct k as [sc|sc| |sc m e B]; try discriminate; cbn in P; [lra|].
    assert (sc = false) as ->. { destruct sc; [|reflexivity]. exfalso. assert (F2R (Float radix2 (Zneg m) e) <= 0) by (apply F2R_le_0; cbn; lia). cbn in *. lra. }
    intros [|]; reflexivity. }
  destruct K as (F & P). assert (FO : is_finite (Bopp k) = true) by now rewrite is_finite_Bopp.
  assert (NZ : B2R (Bopp k) <> 0) by (rewrite B2R_Bopp; lra).
  assert (Q : forall z, is_nan z = false -> is_nan (Bdiv mode_NE z (Bopp k)) = false).
  { intros z N. destruct (is_finite z) eqn:FZ; [now apply ov_div|]. destruct (fin_cases z N FZ); subst; rewrite I; reflexivity. }
  apply le64_ov in L as (N & N' & L). apply le64_ov. split; [now apply Q|]. split; [now apply Q|].
  destruct (is_finite x) eqn:FX; [|destruct (fin_cases x N FX); subst; rewrite I; cbn [negb]; [apply ov_bound|]].
  - destruct (is_finite x') eqn:FX'; [|destruct (fin_cases x' N' FX'); subst; rewrite I; cbn [negb]; [|apply ov_bound]].
    + destruct (ov_div x _ FX FO NZ) as (-> & _), (ov_div x' _ FX' FO NZ) as (-> & _). apply cap_mono, rne_mono. rewrite !ov_fin in L by assumption. rewrite B2R_Bopp.
      unfold Rdiv. assert (/ - B2R k < 0) by (apply Rinv_lt_0_compat; lra). nra.
    + cbn [ov] in L. rewrite ov_fin in L by assumption. pose proof (fin_bound x). lra.
  - cbn [ov] in L. destruct (is_finite x') eqn:FX'.
    + rewrite ov_fin in L by assumption. pose proof (fin_bound x'). lra.
    + destruct (fin_cases x' N' FX'); subst; [cbn [ov] in L; pose proof top_pos; lra|]. rewrite I. apply Rle_refl.
Qed.
Definition negative (k : f64) : Prop := finite k /\ B2R k < 0.
Lemma neg_opp k : negative k -> positive (Bopp k).
Proof. intros (F & N). split; [unfold finite in *; now rewrite is_finite_Bopp|rewrite B2R_Bopp; lra]. Qed.
Lemma opp_opp (x : f64) : Bopp (Bopp x) = x. Proof. apply Bopp_involutive. Qed.
Lemma mult_neg_anti k x x' : negative k -> le64 x x' -> le64 (Bmult mode_NE k x') (Bmult mode_NE k x).
Proof. intros K L. rewrite <- (opp_opp k). apply mult_opp_anti; [now apply neg_opp|exact L]. Qed.
Lemma div_neg_anti k x x' : negative k -> le64 x x' -> le64 (Bdiv mode_NE x' k) (Bdiv mode_NE x k).
Proof. intros K L. rewrite <- (opp_opp k). apply div_opp_anti; [now apply neg_opp|exact L]. Qed.

(** The quotient 1/s for 2 < s stays visibly below one half. *)
Lemma below_half s : finite s -> 2 < B2R s -> 0 <= rne (1 / B2R s) <= / 2 - bpow radix2 (-54).
Proof.
  intros F A. assert (P : 0 < / B2R s) by (apply Rinv_0_lt_compat; lra). split; [apply rne_ge; [apply fmt0|unfold Rdiv; lra]|].
  assert (S : 2 + bpow radix2 (-51) <= B2R s).
  { assert (H : succ radix2 (SpecFloat.fexp 53 1024) (bpow radix2 1) <= B2R s).
    { apply succ_le_lt; [apply vfexp|apply generic_format_bpow; cbn; lia|apply generic_format_B2R|cbn; lra]. }
    rewrite succ_eq_pos in H by apply bpow_ge_0. rewrite ulp_bpow in H. exact H. }
  assert (D : bpow radix2 (-51) = 8 * bpow radix2 (-54)) by (change (-51)%Z with (3 + -54)%Z; rewrite bpow_plus; cbn; lra).
  assert (H1 : bpow radix2 (-54) < / 4) by (change (/ 4) with (bpow radix2 (-2)); apply bpow_lt; lia).
  rewrite D in S. pose proof (bpow_gt_0 radix2 (-54)) as D0. 
  assert (PR : pred radix2 (SpecFloat.fexp 53 1024) (bpow radix2 (-1)) = / 2 - bpow radix2 (-54)).
  { rewrite pred_bpow by apply vfexp. rewrite bpow_half. reflexivity. }
  set (d := bpow radix2 (-54)) in *.
  assert (FH : fmt (bpow radix2 (-1))) by (apply generic_format_bpow; cbn; lia).
  rewrite <- PR. apply round_N_le_midp; [apply vfexp|apply generic_format_pred; [apply vfexp|exact FH]|].
  rewrite succ_pred by (try apply vfexp; exact FH). rewrite PR, bpow_half.
  apply Rmult_lt_reg_r with (B2R s); [lra|]. unfold Rdiv at 1. rewrite Rmult_1_l, Rinv_l by lra. nra.
Qed.

Section Negative.
Context (pow : f64 -> f64 -> f64) (lg ex : f64 -> f64) (ME : monotone_exp ex) (EZ : exp_zero ex) (k : f64) (K : negative k).
Notation O := (f64_ops pow lg ex).
Notation s1 := (Bplus mode_NE one (ex (Bmult mode_NE (Bopp k) one))).
Notation base1 := (sigmoid_base O k one).
Notation corr := (Bdiv mode_NE half base1).

Lemma mult_pos_number t : number t -> number (Bmult mode_NE (Bopp k) t).
Proof. intros N. apply (le64_number (Bmult mode_NE (Bopp k) t) (Bmult mode_NE (Bopp k) t)), (fun L => proj1 (mult_mono (Bopp k) t t (neg_opp _ K) L)). now apply le64_refl. Qed.
Lemma ex_nonneg' x : number x -> le64 zero (ex x).
Proof. intros N. apply (ME x x). now apply le64_refl. Qed.
Lemma base_anti t t' : le64 t t' -> le64 (sigmoid_base O k t') (sigmoid_base O k t).
Proof.
  intros L. unfold sigmoid_base. ev. apply minus_mono; [|reflexivity]. destruct (le64_number _ _ L) as (N & N').
  apply div_anti; [exact pos_one| |].
  - apply (pos_lt one); [exact pos_one|]. apply one_plus, ex_nonneg', mult_pos_number, N.
  - apply plus_mono_r; [|reflexivity]. apply ME. apply (mult_mono (Bopp k) _ _ (neg_opp _ K) L).
Qed.
Lemma s1_ge2 : le64 two s1.
Proof.
  replace two with (Bplus mode_NE one one) by (apply B2SF_inj; vm_compute; reflexivity). apply plus_mono_r; [|reflexivity].
  assert (E0 : ex (Bmult mode_NE (Bopp k) zero) = one). { destruct K as (F & P). destruct k as [s|s| |s m e B]; try discriminate; [cbn in P; lra|]. destruct s; apply EZ. }
  rewrite <- E0 at 1. apply ME. refine (proj1 (mult_mono (Bopp k) _ _ (neg_opp _ K) _)). apply geb_iff. vm_compute. reflexivity.
Qed.
Context (S2 : s1 <> two).
Lemma q_val : finite (Bdiv mode_NE one s1) /\ 0 <= B2R (Bdiv mode_NE one s1) <= / 2 - bpow radix2 (-54).
Proof.
  pose proof s1_ge2 as G. apply le64_ov in G as (_ & N & G). destruct two_val as (V2 & F2). rewrite (ov_fin two), V2 in G by exact F2.
  pose proof (bpow_gt_0 radix2 (-54)) as D0. assert (H1 : bpow radix2 (-54) < / 4) by (change (/ 4) with (bpow radix2 (-2)); apply bpow_lt; lia). pose proof top_big.
  destruct (is_finite s1) eqn:F.
  - rewrite ov_fin in G by exact F. assert (L : 2 < B2R s1).
    { destruct (Req_EM_T (B2R s1) 2) as [E|E]; [|lra]. exfalso. apply S2. clear - E F V2 F2. set (s := s1) in *. clearbody s.
      apply B2R_inj; [|reflexivity|lra]. destruct s as [z| | |]; try discriminate; [|reflexivity]. cbn in E. lra. }
    destruct (below_half _ F L) as (A & B). destruct (ov_div one s1 one_fin F ltac:(lra)) as (E & NQ). rewrite one_val in E.
    rewrite (cap_between _ 0 1) in E by lra. assert (FQ : finite (Bdiv mode_NE one s1)) by (apply fin_of_ov; [exact NQ|lra]).
    rewrite ov_fin in E by exact FQ. split; [exact FQ|lra].
  - destruct (fin_cases _ N F) as [E|E].
    + rewrite E in G. cbn [ov] in G. lra.
    + rewrite E. replace (Bdiv mode_NE one (B754_infinity false)) with zero by (apply B2SF_inj; vm_compute; reflexivity). split; [reflexivity|]. change (B2R zero) with 0. lra.
Qed.
Lemma base1_val' : finite base1 /\ - / 2 <= B2R base1 <= - bpow radix2 (-54).
Proof.
  destruct q_val as (FQ & Q). unfold sigmoid_base. ev. change (f64_cst L1) with one. set (q := Bdiv mode_NE one s1) in *.
  destruct half_val as (VH & FH). destruct (ov_minus q half FQ FH) as (E & NM). rewrite VH in E. pose proof top_big. pose proof (bpow_gt_0 radix2 (-54)) as D0.
  assert (HM : fmt (- / 2)) by (apply generic_format_opp; rewrite <- VH; apply fin_fmt).
  assert (HD : fmt (- bpow radix2 (-54))) by (apply generic_format_opp, generic_format_bpow; cbn; lia).
  assert (M : - / 2 <= rne (B2R q - / 2) <= - bpow radix2 (-54)) by (split; [apply rne_ge|apply rne_le]; try assumption; lra).
  rewrite cap_small in E by (apply Rabs_lt; lra). assert (FM : finite (Bminus mode_NE q half)) by (apply fin_of_ov; [exact NM|lra]).
  rewrite ov_fin in E by exact FM. split; [exact FM|]. lra.
Qed.
Lemma corr_val' : finite corr /\ B2R corr <= -1.
Proof.
  destruct base1_val' as (F & A & B). destruct half_val as (VH & FH). pose proof (bpow_gt_0 radix2 (-54)) as D0.
  destruct (ov_div half base1 FH F ltac:(lra)) as (E & N). rewrite VH in E. pose proof top_big.
  assert (I : / B2R base1 < 0) by (apply Rinv_lt_0_compat; lra).
  assert (IV : / B2R base1 * B2R base1 = 1) by (apply Rinv_l; lra).
  assert (Q1 : rne (/ 2 / B2R base1) <= -1).
  { apply rne_le; [apply generic_format_opp, (fmt_int 1); lia|]. unfold Rdiv. nra. }
  assert (T : bpow radix2 (-54) * 18014398509481984 = 1).
  { change 18014398509481984 with (bpow radix2 54). rewrite <- bpow_plus. reflexivity. }
  assert (Q2 : - 9007199254740992 <= rne (/ 2 / B2R base1)).
  { apply rne_ge; [apply generic_format_opp, (fmt_int 9007199254740992); lia|]. unfold Rdiv.
    assert (- 18014398509481984 <= / B2R base1); [|lra]. apply Rmult_le_reg_r with (bpow radix2 (-54)); [lra|]. nra. }
  rewrite cap_small in E by (apply Rabs_lt; lra).
  assert (FC : finite corr) by (apply fin_of_ov; [exact N|lra]). rewrite ov_fin in E by exact FC. split; [exact FC|lra].
Qed.
Lemma corr_neg : negative corr. Proof. destruct corr_val'. split; [assumption|lra]. Qed.
Lemma sigmoid_mono' : increasing (eval_parametric O 109 [k]).
Proof.
  intros r r' L. ev. do 2 eexists. split; [reflexivity|]. split; [reflexivity|]. unfold sigmoid_factory. ev. change (f64_cst L1) with one.
  apply plus_mono; [|reflexivity]. apply mult_neg_anti; [exact corr_neg|].
  apply base_anti. apply minus_mono; [|reflexivity]. apply mult_mono; [exact pos_two|exact L].
Qed.
Notation arg t := (Bplus mode_NE (Bdiv mode_NE (Bminus mode_NE t half) corr) half).
Lemma arg_unit' t : unit_interval t -> unit_interval (arg t).
Proof.
  intros (A & B). destruct corr_val' as (FC & PC). destruct half_val as (VH & FH). pose proof top_big.
  assert (FT : finite t).
  { apply le64_ov in A as (_ & N & A), B as (_ & _ & B). rewrite (ov_fin one), one_val in B by reflexivity. change (ov zero) with 0 in A. apply fin_of_ov; [exact N|lra]. }
  apply le64_fin in A; [|reflexivity|exact FT]. apply le64_fin in B; [|exact FT|reflexivity]. rewrite one_val in B. change (B2R zero) with 0 in A.
  assert (HM : fmt (- / 2)) by (apply generic_format_opp; rewrite <- VH; apply fin_fmt). assert (HP : fmt (/ 2)) by (rewrite <- VH; apply fin_fmt).
  destruct (ov_minus t half FT FH) as (E & N). rewrite VH in E. set (m := Bminus mode_NE t half) in *.
  assert (M : - / 2 <= rne (B2R t - / 2) <= / 2) by (split; [apply rne_ge|apply rne_le]; try assumption; lra).
  rewrite cap_small in E by (apply Rabs_lt; lra). assert (FM : finite m) by (apply fin_of_ov; [exact N|lra]). rewrite ov_fin in E by exact FM. rewrite <- E in M. clear E N.
  destruct (ov_div m corr FM FC ltac:(lra)) as (E & N). set (q := Bdiv mode_NE m corr) in *.
  assert (I : -1 <= / B2R corr < 0).
  { assert (I0 : / B2R corr < 0) by (apply Rinv_lt_0_compat; lra). assert (IV : / B2R corr * B2R corr = 1) by (apply Rinv_l; lra). split; [nra|exact I0]. }
  assert (Q : - / 2 <= rne (B2R m / B2R corr) <= / 2) by (split; [apply rne_ge|apply rne_le]; try assumption; unfold Rdiv; nra).
  rewrite cap_small in E by (apply Rabs_lt; lra). assert (FQ : finite q) by (apply fin_of_ov; [exact N|lra]). rewrite ov_fin in E by exact FQ. rewrite <- E in Q. clear E N.
  destruct (ov_plus q half FQ FH) as (E & N). rewrite VH in E. assert (Z : 0 <= rne (B2R q + / 2) <= 1) by (split; [apply rne_ge; [apply fmt0|]|apply rne_le; [apply (fmt_int 1); lia|]]; lra).
  rewrite cap_small in E by (apply Rabs_lt; lra). split; apply le64_ov; (split; [first [reflexivity|exact N]|split; [first [reflexivity|exact N]|]]); rewrite E.
  - change (ov zero) with 0. apply Z.
  - rewrite (ov_fin one), one_val by reflexivity. apply Z.
Qed.
Lemma arg_nz' t : arg t <> neg_zero.
Proof. apply plus_nz. intros H. apply (f_equal B2SF) in H. vm_compute in H. discriminate H. Qed.
Lemma inverse_sigmoid_mono' : monotone_log lg -> increasing_on unit_interval (eval_parametric O (-109) [k]).
Proof.
  intros ML r r' R R' L. ev. do 2 eexists. split; [reflexivity|]. split; [reflexivity|]. unfold inverted_sigmoid_factory, inverted_sigmoid_base. ev. change (f64_cst L1) with one.
  assert (LA : le64 (arg r') (arg r)).
  { apply plus_mono; [|reflexivity]. apply div_neg_anti; [exact corr_neg|]. apply minus_mono; [exact L|reflexivity]. }
  destruct (recip_anti _ _ (arg_unit' r' R') (arg_unit' r R) (arg_nz' r') (arg_nz' r) LA) as (Q & G).
  apply div_mono; [exact pos_two|]. apply plus_mono; [|reflexivity]. apply div_neg_anti; [exact K|]. apply opp_anti, ML.
  - apply minus_pos; [reflexivity|exact G].
  - apply minus_mono; [exact Q|reflexivity].
Qed.
End Negative.
(** All finite parameters. *)
Lemma sigmoid_any pow lg ex k : monotone_exp ex -> exp_zero ex -> finite k ->
  let s := Bplus mode_NE one (ex (Bmult mode_NE (Bopp k) one)) in
  (s <> two -> increasing (eval_parametric (f64_ops pow lg ex) 109 [k]) /\
     (monotone_log lg -> increasing_on unit_interval (eval_parametric (f64_ops pow lg ex) (-109) [k]))) /\
  (s = two -> forall r y, eval_parametric (f64_ops pow lg ex) 109 [k] r = Some y -> ~ finite y).
Proof.
  intros ME EZ F s. split; [|intros E r y; now apply flat_sigmoid_two]. intros NE.
  destruct (Rtotal_order (B2R k) 0) as [N|[Z|P]].
  - split; [exact (sigmoid_mono' pow lg ex ME EZ k (conj F N) NE)|exact (inverse_sigmoid_mono' pow lg ex ME EZ k (conj F N) NE)].
  - exfalso. apply NE. unfold s. destruct k as [z| | |z m e B]; try discriminate F.
    + change (ex (Bmult mode_NE (Bopp (B754_zero z)) one)) with (ex (B754_zero (xorb (negb z) false))). rewrite EZ. apply B2SF_inj. vm_compute. reflexivity.
    + cbn in Z. apply eq_0_F2R in Z. now destruct z.
  - assert (K : positive k) by now split. destruct (sigmoid_cases' ex k ME EZ K) as [H|H]; [|contradiction].
    split; [now apply sigmoid_mono|now apply inverse_sigmoid_mono].
Qed.
Lemma sample_negative : finite (Bopp one) /\ Bplus mode_NE one (best_exp (Bmult mode_NE (Bopp (Bopp one)) one)) <> two.
Proof.
  split; [reflexivity|]. replace (Bmult mode_NE (Bopp (Bopp one)) one) with one by (apply B2SF_inj; vm_compute; reflexivity).
  assert (G : le64 two (best_exp one)).
  { pose proof (proj2 (proj2 best_exact) one) as E. rewrite (exact_fin one) in E by reflexivity. rewrite one_val in E. cbn [ext_exp] in E.
    apply ov_of_rounded in E as (E & N). destruct two_val as (V & F). apply le64_ov. split; [reflexivity|]. split; [exact N|]. rewrite E, (ov_fin two), V by exact F.
    apply Rle_trans with (cap 2); [rewrite cap_small; [lra|rewrite Rabs_pos_eq; pose proof top_big; lra]|]. apply cap_mono. apply rne_ge; [apply (fmt_int 2); lia|].
    pose proof (exp_ineq1 1 ltac:(lra)). lra. }
  apply (plus_mono_r one) in G; [|reflexivity]. intros E. rewrite E in G. apply geb_iff in G. vm_compute in G. discriminate G.
Qed.
