(** Order of the sigmoids at binary64 (C92). *)
From Coq Require Import ZArith List Reals Lia Lra Psatz.
From Flocq Require Import Core IEEE754.BinarySingleNaN.
From Verif Require Import M_Base M_F64 M_Curve M_CurveF64 S_F64 S_Exact S_Order P_S15 P_F64 P_Curve3 P_Exact2 P_Order P_Order2.
Import ListNotations.
Open Scope R_scope.
Notation half := (f64_cst Lhalf).
Notation two := (f64_cst L2).

Lemma mult_opp_anti k x x' : positive k -> le64 x x' -> le64 (Bmult mode_NE (Bopp k) x') (Bmult mode_NE (Bopp k) x).
Proof.
  intros K L. assert (I : forall s, Bmult mode_NE (Bopp k) (B754_infinity s) = B754_infinity (negb s)).
  { destruct K as (F & P). destruct k as [sc|sc| |sc m e B]; try discriminate; cbn in P; [lra|].
    assert (sc = false) as ->. { destruct sc; [|reflexivity]. exfalso. assert (F2R (Float radix2 (Zneg m) e) <= 0) by (apply F2R_le_0; cbn; lia). cbn in *. lra. }
    intros [|]; reflexivity. }
  destruct K as (F & P). assert (FO : is_finite (Bopp k) = true) by now rewrite is_finite_Bopp.
  assert (Q : forall z, is_nan z = false -> is_nan (Bmult mode_NE (Bopp k) z) = false).
  { intros z N. destruct (is_finite z) eqn:FZ; [now apply ov_mult|]. destruct (fin_cases z N FZ); subst; rewrite I; reflexivity. }
  apply le64_ov in L as (N & N' & L). apply le64_ov. split; [now apply Q|]. split; [now apply Q|].
  destruct (is_finite x) eqn:FX; [|destruct (fin_cases x N FX); subst; rewrite I; cbn [negb]; [apply ov_bound|]].
  - destruct (is_finite x') eqn:FX'; [|destruct (fin_cases x' N' FX'); subst; rewrite I; cbn [negb]; [|apply ov_bound]].
    + destruct (ov_mult _ x FO FX) as (-> & _), (ov_mult _ x' FO FX') as (-> & _). apply cap_mono, rne_mono. rewrite !ov_fin in L by assumption. rewrite B2R_Bopp. nra.
    + cbn [ov] in L. rewrite ov_fin in L by assumption. pose proof (fin_bound x). lra.
  - cbn [ov] in L. destruct (is_finite x') eqn:FX'.
    + rewrite ov_fin in L by assumption. pose proof (fin_bound x'). lra.
    + destruct (fin_cases x' N' FX'); subst; [cbn [ov] in L; pose proof top_pos; lra|]. rewrite I. apply Rle_refl.
Qed.

(** The quotient 1/s for 1 <= s < 2 stays visibly above one half. *)
Lemma above_half s : finite s -> 1 <= B2R s -> B2R s < 2 -> / 2 + bpow radix2 (-53) <= rne (1 / B2R s) <= 1.
Proof.
  intros F A B. split.
  2:{ apply rne_le; [apply (fmt_int 1); lia|]. apply Rmult_le_reg_r with (B2R s); [lra|]. unfold Rdiv. rewrite Rmult_assoc, Rinv_l by lra. lra. }
  assert (P : B2R s <= 2 - bpow radix2 (-52)).
  { assert (H : B2R s <= pred radix2 (SpecFloat.fexp 53 1024) (bpow radix2 1)).
    { apply pred_ge_gt; [apply vfexp|apply generic_format_B2R|apply generic_format_bpow; cbn; lia|cbn; lra]. }
    rewrite pred_bpow in H by apply vfexp. exact H. }
  assert (D : bpow radix2 (-52) = 2 * bpow radix2 (-53)) by (change (-52)%Z with (1 + -53)%Z; rewrite bpow_plus; cbn; lra).
  rewrite D in P. pose proof (bpow_gt_0 radix2 (-53)) as D0. set (d := bpow radix2 (-53)) in *.
  assert (SU : succ radix2 (SpecFloat.fexp 53 1024) (bpow radix2 (-1)) = / 2 + d).
  { rewrite succ_eq_pos by apply bpow_ge_0. rewrite ulp_bpow. rewrite bpow_half. reflexivity. }
  assert (FH : fmt (bpow radix2 (-1))) by (apply generic_format_bpow; cbn; lia).
  rewrite <- SU. apply round_N_ge_midp; [apply vfexp|apply generic_format_succ; [apply vfexp|exact FH]|].
  rewrite pred_succ by (try apply vfexp; exact FH). rewrite SU, bpow_half.
  apply Rmult_lt_reg_r with (B2R s); [lra|]. unfold Rdiv at 2. rewrite Rmult_1_l, Rinv_l by lra. nra.
Qed.
Lemma half_val : B2R half = / 2 /\ is_finite half = true.
Proof. destruct (cst_val Lhalf 1 (-1) eq_refl ltac:(lia) ltac:(lia)) as (V & F). rewrite bpow_half in V. split; [lra|exact F]. Qed.
Lemma two_val : B2R two = 2 /\ is_finite two = true.
Proof. destruct (cst_val L2 2 0 eq_refl ltac:(lia) ltac:(lia)) as (V & F). cbn [bpow] in V. split; [lra|exact F]. Qed.
Lemma one_val : B2R one = 1. Proof. exact (proj1 cst1). Qed.
Lemma pos_half : positive half. Proof. destruct half_val. split; [assumption|lra]. Qed.
Lemma pos_one : positive one. Proof. split; [reflexivity|rewrite one_val; lra]. Qed.
Lemma pos_two : positive two. Proof. destruct two_val. split; [assumption|lra]. Qed.
Lemma one_plus x : le64 zero x -> le64 one (Bplus mode_NE one x).
Proof.
  intros L. apply le64_trans with (Bplus mode_NE one zero); [|apply plus_mono_r; [exact L|reflexivity]].
  replace (Bplus mode_NE one zero) with one by (apply B2SF_inj; vm_compute; reflexivity). apply le64_refl, number_fin, one_fin.
Qed.
Lemma cap_between (v lo hi : R) : 0 <= lo -> hi < top -> lo <= v <= hi -> cap v = v.
Proof. intros. apply cap_small. rewrite Rabs_pos_eq; lra. Qed.
Lemma top_big : 9007199254740992 < top.
Proof. change 9007199254740992 with (bpow radix2 53). apply bpow_lt. lia. Qed.

Section Sigmoid.
Context (pow : f64 -> f64 -> f64) (lg ex : f64 -> f64) (ME : monotone_exp ex) (k : f64) (K : positive k).
Notation O := (f64_ops pow lg ex).
Notation s1 := (Bplus mode_NE one (ex (Bmult mode_NE (Bopp k) one))).
Notation base1 := (sigmoid_base O k one).
Notation corr := (Bdiv mode_NE half base1).

Lemma ex_nonneg x : number x -> le64 zero (ex x).
Proof. intros N. apply (ME x x). now apply le64_refl. Qed.
Lemma mult_opp_number t : number t -> number (Bmult mode_NE (Bopp k) t).
Proof. intros N. apply (le64_number (Bmult mode_NE (Bopp k) t) (Bmult mode_NE (Bopp k) t)), mult_opp_anti; [exact K|now apply le64_refl]. Qed.
Lemma base_mono t t' : le64 t t' -> le64 (sigmoid_base O k t) (sigmoid_base O k t').
Proof.
  intros L. unfold sigmoid_base. ev. apply minus_mono; [|reflexivity]. destruct (le64_number _ _ L) as (N & N').
  apply div_anti; [exact pos_one| |].
  - apply (pos_lt one); [exact pos_one|]. apply one_plus, ex_nonneg, mult_opp_number, N'.
  - apply plus_mono_r; [|reflexivity]. apply ME. now apply mult_opp_anti.
Qed.
Lemma s1_ge : le64 one s1.
Proof. apply one_plus, ex_nonneg, mult_opp_number, number_fin, one_fin. Qed.
Context (S2 : lt64 s1 two).
Lemma s1_val : finite s1 /\ 1 <= B2R s1 < 2.
Proof.
  pose proof s1_ge as A. pose proof S2 as B. apply ltb_lt64, ltb_iff in B as (N & _ & B). apply le64_ov in A as (_ & _ & A).
  destruct two_val as (V2 & F2). rewrite (ov_fin two), V2 in B by exact F2. rewrite (ov_fin one), one_val in A by reflexivity.
  pose proof top_big. assert (F : finite s1) by (apply fin_of_ov; [exact N|lra]). rewrite ov_fin in A, B by exact F. split; [exact F|lra].
Qed.
Lemma base1_val : finite base1 /\ bpow radix2 (-53) <= B2R base1 <= / 2.
Proof.
  destruct s1_val as (F & A & B). unfold sigmoid_base. ev. change (f64_cst L1) with one.
  destruct (above_half _ F A B) as (Q1 & Q2). destruct (ov_div one s1 one_fin F ltac:(lra)) as (E & N). rewrite one_val in E.
  pose proof top_big. pose proof (bpow_gt_0 radix2 (-53)) as D0.
  rewrite (cap_between _ 0 1) in E by lra. set (q := Bdiv mode_NE one s1) in *.
  assert (FQ : finite q) by (apply fin_of_ov; [exact N|lra]). rewrite ov_fin in E by exact FQ. rewrite <- E in Q1, Q2.
  destruct half_val as (VH & FH). destruct (ov_minus q half FQ FH) as (_ & NM).
  assert (EM := minus_sterbenz q half FQ FH ltac:(rewrite VH; lra)). rewrite VH in EM. set (m := Bminus mode_NE q half) in *.
  assert (FM : finite m) by (apply fin_of_ov; [exact NM|lra]). rewrite ov_fin in EM by exact FM. split; [exact FM|lra].
Qed.
Lemma corr_val : finite corr /\ 1 <= B2R corr.
Proof.
  destruct base1_val as (F & A & B). destruct half_val as (VH & FH). pose proof (bpow_gt_0 radix2 (-53)) as D0.
  destruct (ov_div half base1 FH F ltac:(lra)) as (E & N). rewrite VH in E. pose proof top_big.
  assert (Q1 : 1 <= rne (/ 2 / B2R base1)).
  { apply rne_ge; [apply (fmt_int 1); lia|]. apply Rmult_le_reg_r with (B2R base1); [lra|]. unfold Rdiv. rewrite Rmult_assoc, Rinv_l by lra. lra. }
  assert (Q2 : rne (/ 2 / B2R base1) <= 4503599627370496).
  { apply rne_le; [apply (fmt_int 4503599627370496); lia|]. apply Rmult_le_reg_r with (B2R base1); [lra|]. unfold Rdiv. rewrite Rmult_assoc, Rinv_l by lra.
    assert (bpow radix2 (-53) * 9007199254740992 = 1).
    { change 9007199254740992 with (bpow radix2 53). rewrite <- bpow_plus. reflexivity. } lra. }
  rewrite (cap_between _ 1 4503599627370496) in E by lra.
  assert (FC : finite corr) by (apply fin_of_ov; [exact N|lra]). rewrite ov_fin in E by exact FC. split; [exact FC|lra].
Qed.
Lemma sigmoid_mono : increasing (eval_parametric O 109 [k]).
Proof.
  intros r r' L. ev. do 2 eexists. split; [reflexivity|]. split; [reflexivity|]. unfold sigmoid_factory. ev. change (f64_cst L1) with one.
  destruct corr_val as (F & P). apply plus_mono; [|reflexivity]. apply mult_mono; [split; [exact F|lra]|].
  apply base_mono. apply minus_mono; [|reflexivity]. apply mult_mono; [exact pos_two|exact L].
Qed.

(** The inverse, on the unit interval. *)
Notation arg t := (Bplus mode_NE (Bdiv mode_NE (Bminus mode_NE t half) corr) half).
Lemma arg_unit t : unit_interval t -> unit_interval (arg t).
Proof.
  intros (A & B). destruct corr_val as (FC & PC). destruct half_val as (VH & FH). pose proof top_big.
  assert (FT : finite t).
  { apply le64_ov in A as (_ & N & A), B as (_ & _ & B). rewrite (ov_fin one), one_val in B by reflexivity. change (ov zero) with 0 in A. apply fin_of_ov; [exact N|lra]. }
  apply le64_fin in A; [|reflexivity|exact FT]. apply le64_fin in B; [|exact FT|reflexivity]. rewrite one_val in B. change (B2R zero) with 0 in A.
  assert (HM : fmt (- / 2)) by (apply generic_format_opp; rewrite <- VH; apply fin_fmt). assert (HP : fmt (/ 2)) by (rewrite <- VH; apply fin_fmt).
  destruct (ov_minus t half FT FH) as (E & N). rewrite VH in E. set (m := Bminus mode_NE t half) in *.
  assert (M : - / 2 <= rne (B2R t - / 2) <= / 2) by (split; [apply rne_ge|apply rne_le]; try assumption; lra).
  rewrite cap_small in E by (apply Rabs_lt; lra). assert (FM : finite m) by (apply fin_of_ov; [exact N|lra]). rewrite ov_fin in E by exact FM. rewrite <- E in M. clear E N.
  destruct (ov_div m corr FM FC ltac:(lra)) as (E & N). set (q := Bdiv mode_NE m corr) in *.
  assert (I : 0 < / B2R corr <= 1) by (split; [apply Rinv_0_lt_compat; lra|rewrite <- Rinv_1; apply Rinv_le_contravar; lra]).
  assert (Q : - / 2 <= rne (B2R m / B2R corr) <= / 2) by (split; [apply rne_ge|apply rne_le]; try assumption; unfold Rdiv; nra).
  rewrite cap_small in E by (apply Rabs_lt; lra). assert (FQ : finite q) by (apply fin_of_ov; [exact N|lra]). rewrite ov_fin in E by exact FQ. rewrite <- E in Q. clear E N.
  destruct (ov_plus q half FQ FH) as (E & N). rewrite VH in E. assert (Z : 0 <= rne (B2R q + / 2) <= 1) by (split; [apply rne_ge; [apply fmt0|]|apply rne_le; [apply (fmt_int 1); lia|]]; lra).
  rewrite cap_small in E by (apply Rabs_lt; lra). split; apply le64_ov; (split; [first [reflexivity|exact N]|split; [first [reflexivity|exact N]|]]); rewrite E.
  - change (ov zero) with 0. apply Z.
  - rewrite (ov_fin one), one_val by reflexivity. apply Z.
Qed.
Lemma arg_nz t : arg t <> neg_zero.
Proof. apply plus_nz. intros H. apply (f_equal B2SF) in H. vm_compute in H. discriminate H. Qed.
Lemma recip_anti v v' : unit_interval v -> unit_interval v' -> v <> neg_zero -> v' <> neg_zero -> le64 v v' ->
  le64 (Bdiv mode_NE one v') (Bdiv mode_NE one v) /\ le64 one (Bdiv mode_NE one v').
Proof.
  intros (A & B) (A' & B') Z Z' L.
  assert (P : forall w, le64 zero w -> w <> neg_zero -> w = zero \/ lt64 zero w).
  { intros w W NW. destruct (f64_geb zero w) eqn:G.
    - left. apply geb_iff in G. apply le64_ov in G as (N & _ & G), W as (_ & _ & W). change (ov zero) with 0 in *. pose proof top_pos.
      assert (FW : is_finite w = true) by (apply fin_of_ov; [exact N|lra]). rewrite ov_fin in * by exact FW.
      destruct w as [[|]| | |sw m e H0]; try discriminate; try reflexivity.
      + now elim NW.
      + exfalso. assert (E0 : B2R (B754_finite sw m e H0 : f64) = 0) by lra. cbn in E0. apply eq_0_F2R in E0. now destruct sw.
    - right. split; [exact W|]. rewrite <- geb_iff. congruence. }
  assert (OO : Bdiv mode_NE one one = one) by (apply B2SF_inj; vm_compute; reflexivity).
  assert (OZ : Bdiv mode_NE one zero = B754_infinity false) by (apply B2SF_inj; vm_compute; reflexivity).
  assert (G1 : forall w, unit_interval w -> w <> neg_zero -> le64 one (Bdiv mode_NE one w)).
  { intros w (W & W1) NW. destruct (P w W NW) as [->|PW]; [rewrite OZ; exact I|].
    rewrite <- OO at 1. apply div_anti; [exact pos_one|exact PW|exact W1]. }
  split; [|apply G1; [now split|exact Z']].
  destruct (P v A Z) as [->|PV]; [|apply div_anti; [exact pos_one|exact PV|exact L]].
  rewrite OZ. pose proof (G1 v' (conj A' B') Z') as H. apply le64_number in H as (_ & H). apply number_nan in H.
  destruct (Bdiv mode_NE one v') as [|[|]| |]; try discriminate; exact I.
Qed.
Lemma inverse_sigmoid_mono : monotone_log lg -> increasing_on unit_interval (eval_parametric O (-109) [k]).
Proof.
  intros ML r r' R R' L. ev. do 2 eexists. split; [reflexivity|]. split; [reflexivity|]. unfold inverted_sigmoid_factory, inverted_sigmoid_base. ev. change (f64_cst L1) with one.
  destruct corr_val as (FC & PC).
  assert (LA : le64 (arg r) (arg r')).
  { apply plus_mono; [|reflexivity]. apply div_mono; [split; [exact FC|lra]|]. apply minus_mono; [exact L|reflexivity]. }
  destruct (recip_anti _ _ (arg_unit r R) (arg_unit r' R') (arg_nz r) (arg_nz r') LA) as (Q & G).
  apply div_mono; [exact pos_two|]. apply plus_mono; [|reflexivity]. apply div_mono; [exact K|]. apply opp_anti, ML.
  - apply minus_pos; [reflexivity|exact G].
  - apply minus_mono; [exact Q|reflexivity].
Qed.
End Sigmoid.
(** The two cases exhaust the positive parameters. *)
Lemma sigmoid_cases ex k : monotone_exp ex -> ex (Bmult mode_NE (Bopp k) zero) = one -> positive k ->
  lt64 (Bplus mode_NE one (ex (Bmult mode_NE (Bopp k) one))) two \/ Bplus mode_NE one (ex (Bmult mode_NE (Bopp k) one)) = two.
Proof.
  intros ME E0 K. assert (Z1 : le64 zero one) by (apply geb_iff; vm_compute; reflexivity).
  assert (L : le64 (Bplus mode_NE one (ex (Bmult mode_NE (Bopp k) one))) two).
  { apply le64_trans with (Bplus mode_NE one one).
    - apply plus_mono_r; [|reflexivity]. rewrite <- E0 at 2. apply ME. now apply mult_opp_anti.
    - replace (Bplus mode_NE one one) with two by (apply B2SF_inj; vm_compute; reflexivity). apply le64_refl, number_fin. reflexivity. }
  pose proof (s1_ge ex ME k K) as G. set (s := Bplus mode_NE one _) in *.
  destruct (f64_geb s two) eqn:GE; [right|left; split; [exact L|rewrite <- geb_iff; congruence]].
  apply geb_iff in GE. apply le64_ov in L as (N & _ & L), GE as (_ & _ & GE). destruct two_val as (V & F). pose proof top_big. rewrite (ov_fin two), V in * by exact F.
  assert (FS : is_finite s = true) by (apply fin_of_ov; [exact N|lra]). rewrite ov_fin in * by exact FS.
  apply B2R_inj; [|reflexivity|lra]. clearbody s. destruct s as [z| | |]; try discriminate; [|reflexivity]. cbn in *. lra.
Qed.
Lemma flat_sigmoid_two pow lg ex k r y : Bplus mode_NE one (ex (Bmult mode_NE (Bopp k) one)) = two -> eval_parametric (f64_ops pow lg ex) 109 [k] r = Some y -> ~ finite y.
Proof.
  intros E. ev. unfold sigmoid_factory. ev. set (s := sigmoid_base (f64_ops pow lg ex) k (Bminus mode_NE _ _)). unfold sigmoid_base. ev. change (f64_cst L1) with one. rewrite E.
  replace (Bdiv mode_NE (f64_cst Lhalf) _) with (B754_infinity false : f64) by (vm_compute; reflexivity).
  intros [= <-]. unfold finite. destruct s as [[|]|[|]| |[|] m x B]; cbn [Bmult]; vm_compute; discriminate.
Qed.
