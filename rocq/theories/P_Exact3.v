(** A correctly rounded math library: it exists, and it meets the weaker contracts used elsewhere. *)
From Coq Require Import ZArith List Reals Lia Lra.
From Flocq Require Import Core IEEE754.BinarySingleNaN.
From Verif Require Import M_Base M_F64 M_Curve M_CurveF64 M_CurveReal S_F64 S_Exact S_Pow P_S15 P_F64 P_Curve3 P_CurveErr P_Ideal P_Exact P_Exact2 P_Pow.
Import ListNotations.
Open Scope R_scope.

Lemma round64_nz z : round64 z <> neg_zero.
Proof.
  intros Z. unfold round64, f64_lit in Z. set (v := rne z) in *. set (m := Ztrunc _) in *. set (e := cexp _ _ _) in *.
  assert (E : F2R (Float radix2 m e) = v).
  { symmetry. unfold m, e, v. apply generic_format_round; [now apply fexp_correct|apply valid_rnd_round_mode]. }
  pose proof (binary_normalize_correct 53 1024 prec53 emax53 mode_NE m e false) as H. rewrite E in H.
  assert (RV : rne v = v).
  { apply round_generic; [apply valid_rnd_round_mode|]. unfold v. apply generic_format_round; [now apply fexp_correct|apply valid_rnd_round_mode]. }
  cbv zeta in H. rewrite RV, Z in H. destruct (Rlt_bool _ _); [|discriminate H]. destruct H as (B & _ & S). cbn [B2R neg_zero Bsign] in *.
  rewrite Rcompare_Eq in S by now symmetry. discriminate S.
Qed.
(** The binary64 number nearest to an extended real. *)
Definition of_ext (x : ext) : f64 :=
  match x with Fin v => round64 v | PInf => B754_infinity false | NInf => B754_infinity true | NaN => B754_nan end.
Lemma exact_of_ext x : exact (of_ext x) = rounded x.
Proof. destruct x as [v| | |]; try reflexivity. apply exact_of_ov, round64_ov. Qed.
Definition best_pow (x y : f64) : f64 := of_ext (ext_pow (exact x) (exact y)).
Definition best_log10 (x : f64) : f64 := of_ext (ext_log10 (exact x)).
Definition best_exp (x : f64) : f64 := of_ext (ext_exp (exact x)).
Lemma best_exact : exact_pow best_pow /\ exact_log10 best_log10 /\ exact_exp best_exp.
Proof.
  split; [|split].
  - intros x y _. apply exact_of_ext.
  - intros x. split; [apply exact_of_ext|]. unfold best_log10. destruct (ext_log10 _); try discriminate. apply round64_nz.
  - intros x. apply exact_of_ext.
Qed.

Lemma exact_nan x : exact x = NaN -> x = B754_nan. Proof. now destruct x as [|[|]| |]. Qed.
Lemma exact_zero_iff (y : f64) : exact y = Fin 0 -> exists s, y = B754_zero s.
Proof.
  destruct y as [s|[|]| |s m e B]; try discriminate; [now exists s|]. intros H. apply exact_fin_inv in H as (_ & H).
  pose proof (sign_R s m e B) as S. cbn zeta in S. destruct s; lra.
Qed.
Lemma exact_one_iff (x : f64) : exact x = Fin 1 -> x = f64_lit 1 0.
Proof.
  intros H. apply exact_fin_inv in H as (F & V). destruct cst1 as (V1 & F1). change (f64_lit 1 0) with (f64_cst L1). apply B2R_Bsign_inj; try assumption.
  - now rewrite V1.
  - change (Bsign (f64_cst L1)) with false. destruct x as [s|s| |s m e B]; try discriminate; [cbn in V; lra|].
    pose proof (sign_R s m e B) as S. cbn zeta in S. destruct s; [lra|reflexivity].
Qed.
Section Contracts.
  Context (pow : f64 -> f64 -> f64) (HP : exact_pow pow).
  Lemma exact_pow_nan : nan_keeping_pow pow.
  Proof.
    split.
    - intros y NY. apply exact_nan. rewrite HP by discriminate. change (exact nan) with NaN. rewrite (proj1 (pow_iff NaN (exact y) NaN)); [reflexivity|].
      constructor. intros H. apply exact_zero_iff in H as (s & ->). now apply (NY s).
    - intros x NX. apply exact_nan. rewrite HP by reflexivity. change (exact nan) with NaN. rewrite (proj1 (pow_iff (exact x) NaN NaN)); [reflexivity|].
      apply pow_nan_r. intros H. now apply NX, exact_one_iff.
  Qed.
  Lemma ov_of_rounded (z : f64) v : exact z = rounded (Fin v) -> ov z = cap (rne v) /\ is_nan z = false.
  Proof.
    intros H. rewrite <- (exact_of_ext (Fin v)) in H. cbn [of_ext] in H. destruct (round64_ov v) as (O & N). rewrite <- O.
    destruct (exact_case z) as [(F & E)|[->|[->| ->]]], (exact_case (round64 v)) as [(F' & E')|[E'|[E'|E']]]; rewrite ?E, ?E' in *; try discriminate; try (split; reflexivity).
    rewrite !ov_fin by assumption. split; [congruence|now apply fin_not_nan].
  Qed.
  (** Power with a positive exponent on non-negative numbers. *)
  Lemma pow_value g x : positive g -> le64 zero x ->
    (exact x = PInf /\ pow x g = B754_infinity false) \/
    (exists a v, exact x = Fin a /\ 0 <= a /\ exact (pow x g) = rounded (Fin v) /\ (a = 0 -> v = 0) /\ (0 < a -> v = Rpower a (B2R g))).
  Proof.
    intros (FG & G) X. assert (E : exact (pow x g) = rounded (ext_pow (exact x) (Fin (B2R g)))).
    { rewrite <- (exact_fin g) by exact FG. apply HP. intros _. rewrite (exact_fin g) by exact FG. cbn [ext_lt]. apply Rltb_f. lra. }
    destruct (exact_case x) as [(F & EX)|[->|[->| ->]]]; try contradiction.
    - right. assert (P : 0 <= B2R x) by (apply le64_fin in X; [exact X|reflexivity|exact F]). rewrite EX in E.
      destruct P as [P|P].
      + exists (B2R x), (Rpower (B2R x) (B2R g)). rewrite (proj1 (pow_iff _ _ _) (pow_pos (B2R x) (B2R g) P)) in E. repeat split; try assumption; try lra. 
      + exists 0, 0. rewrite <- P in *. rewrite (proj1 (pow_iff _ _ _) (pow_0_pos (B2R g) G)) in E. repeat split; try assumption; lra.
    - left. split; [reflexivity|]. cbn [exact] in E. rewrite (proj1 (pow_iff _ _ _) (pow_pinf_pos (B2R g) G)) in E.
      destruct (pow _ g) as [|[|]| |]; try discriminate E. reflexivity.
  Qed.
  Lemma exact_pow_monotone : monotone_pow pow.
  Proof.
    intros g x y G X L. pose proof (le64_trans _ _ _ X L) as Y. pose proof (proj2 G) as GP.
    assert (ZV : forall z, le64 zero z -> le64 zero (pow z g)).
    { intros z Z. destruct (pow_value g z G Z) as [(_ & ->)|(a & v & _ & A & E & V0 & V1)]; [exact I|].
      apply ov_of_rounded in E as (E & N). apply le64_ov. split; [reflexivity|]. split; [exact N|]. rewrite E. cbn [ov zero B2R].
      apply cap_nonneg, rne_ge; [apply fmt0|]. destruct A as [A|A]; [rewrite V1 by exact A; left; apply exp_pos|rewrite V0 by (now symmetry); lra]. }
    split; [now apply ZV|].
    destruct (pow_value g y G Y) as [(_ & EY)|(b & w & EB & B & EY & W0 & W1)].
    { rewrite EY. pose proof (ZV x X) as N. destruct (pow x g) as [|[|]| |]; try exact I; contradiction. }
    destruct (pow_value g x G X) as [(EX & _)|(a & v & EA & A & EX & V0 & V1)].
    { exfalso. destruct x as [|[|]| |]; try discriminate EX. destruct y as [|[|]| |]; try contradiction; discriminate EB. }
    apply exact_fin_inv in EA as (FX & VX), EB as (FY & VY). apply le64_fin in L; [|assumption|assumption]. rewrite VX, VY in L.
    apply ov_of_rounded in EX as (OX & NX), EY as (OY & NY). apply le64_ov. repeat split; try assumption. rewrite OX, OY. apply cap_mono, rne_mono.
    destruct A as [A|A].
    - rewrite V1, W1 by lra. apply Rpower_mono; [exact GP|lra].
    - rewrite V0 by now symmetry. destruct B as [B|B]; [rewrite W1 by exact B; left; apply exp_pos|rewrite W0 by (now symmetry); lra].
  Qed.
  Lemma exact_pow_accurate : accurate_pow (2 * ulp_half) pow.
  Proof.
    intros x y (FX & PX) FY L.
    assert (E : exact (pow x y) = exact (round64 (Rpower (B2R x) (B2R y)))).
    { rewrite HP by (intros ->; cbn in PX; lra). rewrite (exact_fin x), (exact_fin y) by assumption.
      rewrite (proj1 (pow_iff _ _ _) (pow_pos (B2R x) (B2R y) PX)). symmetry. apply (exact_of_ext (Fin _)). }
    assert (LN : ln (Rpower (B2R x) (B2R y)) = B2R y * ln (B2R x)) by (unfold Rpower; apply ln_exp).
    destruct (round64_near (Rpower (B2R x) (B2R y))) as ((F & P) & A); [now rewrite LN|apply exp_pos|].
    rewrite (exact_fin (round64 _)) in E by exact F. apply exact_fin_inv in E as (F' & V). rewrite LN in A.
    split; [split; [exact F'|now rewrite V]|]. rewrite V. exact A.
  Qed.
End Contracts.

Lemma square3 :
  Forall (fun p => p <> neg_zero) [f64_lit 2 0] /\ f64_lit 3 0 <> neg_zero /\
  option_map exact (eval_parametric (f64_ops best_pow best_log10 best_exp) 1 [f64_lit 2 0] (f64_lit 3 0)) = Some (rounded (Fin 9)).
Proof.
  assert (A : f64_lit 2 0 <> neg_zero) by (intros H; apply (f_equal B2SF) in H; vm_compute in H; discriminate H).
  assert (B : f64_lit 3 0 <> neg_zero) by (intros H; apply (f_equal B2SF) in H; vm_compute in H; discriminate H).
  split; [now repeat constructor|]. split; [exact B|].
  rewrite simulation by (apply best_exact || (now repeat constructor) || assumption). unfold eval_parametric. cbn [nth_error map].
  cbn [f_lt f_lit f_pow round_ops]. rewrite !lit_int_exact by (vm_compute; discriminate). unfold ext_lit. rewrite rounded_0. cbn [ext_lt]. rewrite Rltb_f by lra.
  do 2 f_equal. apply pow_iff. replace 9 with (exp (2 * ln 3)); [apply pow_pos; lra|].
  replace (2 * ln 3) with (ln 3 + ln 3) by ring. rewrite exp_plus, exp_ln by lra. lra.
Qed.
Lemma rounding_visible :
  Bplus mode_NE (f64_lit 1 53) (f64_lit 1 0) = f64_lit 1 53 /\ exact (Bmult mode_NE (f64_lit 1 1000) (f64_lit 1 1000)) = PInf /\
  exact (Bmult mode_NE (f64_lit 1 (-1000)) (f64_lit (-1) (-1000))) = Fin 0.
Proof. split; [apply B2SF_inj; vm_compute; reflexivity|]. split; reflexivity. Qed.
