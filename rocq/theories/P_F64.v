(** Order and monotonicity of binary64 operations. *)
From Coq Require Import ZArith Reals Lia Lra Psatz.
From Flocq Require Import Core IEEE754.BinarySingleNaN.
From Verif Require Import M_Base M_F64 M_Curve M_CurveF64 S_F64 P_S15.
Open Scope R_scope.

Notation top := (bpow radix2 1024).

(** The value, infinities being the first numbers out of range. *)
Definition ov (x : f64) : R :=
  match x with B754_infinity s => if s then - top else top | _ => B2R x end.
Lemma top_pos : 0 < top. Proof. apply bpow_gt_0. Qed.
Lemma ov_fin x : is_finite x = true -> ov x = B2R x.
Proof. now destruct x. Qed.
Lemma fin_bound (x : f64) : - top < B2R x < top.
Proof. pose proof (abs_B2R_lt_emax 53 1024 x) as H. apply Rabs_def2 in H. lra. Qed.
Lemma ov_bound x : - top <= ov x <= top.
Proof. pose proof (fin_bound x). pose proof top_pos. destruct x as [s|s| |s m e B]; cbn [ov]; try destruct s; lra. Qed.
Lemma le64_ov x y : le64 x y <-> is_nan x = false /\ is_nan y = false /\ ov x <= ov y.
Proof.
  pose proof (fin_bound x). pose proof (fin_bound y). pose proof top_pos.
  destruct x as [sx|[|]| |sx mx ex Bx], y as [sy|[|]| |sy my ey By]; cbn [le64 ov is_nan]; cbn [B2R] in *; intuition (try discriminate; try lra).
Qed.
Lemma le64_refl x : number x -> le64 x x.
Proof. intros N. apply le64_ov. assert (is_nan x = false) by (destruct x; auto; now contradict N). repeat split; auto. lra. Qed.
Lemma le64_trans x y z : le64 x y -> le64 y z -> le64 x z.
Proof. rewrite !le64_ov. intuition lra. Qed.
Lemma le64_number x y : le64 x y -> number x /\ number y.
Proof. rewrite le64_ov. intros (A & B & _). split; intros ->; discriminate. Qed.
Lemma le64_fin x y : is_finite x = true -> is_finite y = true -> (le64 x y <-> B2R x <= B2R y).
Proof. intros A B. rewrite le64_ov, !ov_fin by assumption. destruct x, y; try discriminate; cbn; intuition. Qed.
Lemma number_nan x : number x <-> is_nan x = false.
Proof. unfold number. destruct x; cbn; intuition congruence. Qed.

Lemma compare_ov (x y : f64) : is_nan x = false -> is_nan y = false -> Bcompare x y = Some (Rcompare (ov x) (ov y)).
Proof.
  intros NX NY. pose proof (fin_bound x) as HX. pose proof (fin_bound y) as HY. pose proof top_pos.
  destruct (is_finite x) eqn:FX, (is_finite y) eqn:FY.
  - rewrite !ov_fin by assumption. now apply Bcompare_correct.
  - destruct y as [|[|]| |]; try discriminate; destruct x as [|[|]| |[|]]; try discriminate; cbn [ov];
      cbn [B2R] in *; first [rewrite Rcompare_Gt by lra|rewrite Rcompare_Lt by lra]; reflexivity.
  - destruct x as [|[|]| |]; try discriminate; destruct y as [|[|]| |[|]]; try discriminate; cbn [ov];
      cbn [B2R] in *; first [rewrite Rcompare_Gt by lra|rewrite Rcompare_Lt by lra]; reflexivity.
  - destruct x as [|[|]| |]; try discriminate; destruct y as [|[|]| |]; try discriminate; cbn [ov];
      first [rewrite Rcompare_Gt by lra|rewrite Rcompare_Lt by lra|rewrite Rcompare_Eq by reflexivity]; reflexivity.
Qed.
Lemma nan_compare (x y : f64) : is_nan x = true \/ is_nan y = true -> Bcompare x y = None.
Proof. destruct x as [|[|]| |[|]], y as [|[|]| |[|]]; intros [H|H]; try discriminate; reflexivity. Qed.
Lemma ltb_iff x y : f64_ltb x y = true <-> is_nan x = false /\ is_nan y = false /\ ov x < ov y.
Proof.
  unfold f64_ltb. destruct (is_nan x) eqn:NX; [rewrite nan_compare by auto; intuition discriminate|].
  destruct (is_nan y) eqn:NY; [rewrite nan_compare by auto; intuition discriminate|].
  rewrite compare_ov by assumption. destruct (Rcompare_spec (ov x) (ov y)); intuition (try discriminate; try lra).
Qed.
Lemma geb_iff x y : f64_geb x y = true <-> le64 y x.
Proof.
  rewrite le64_ov. unfold f64_geb. destruct (is_nan x) eqn:NX; [rewrite nan_compare by auto; intuition discriminate|].
  destruct (is_nan y) eqn:NY; [rewrite nan_compare by auto; intuition discriminate|].
  rewrite compare_ov by assumption. destruct (Rcompare_spec (ov x) (ov y)); intuition (try discriminate; try lra).
Qed.
Lemma ltb_lt64 x y : f64_ltb x y = true <-> lt64 x y.
Proof.
  rewrite ltb_iff. unfold lt64. rewrite !le64_ov. intuition lra.
Qed.
Lemma ltb_false x y : number x -> number y -> f64_ltb x y = false -> le64 y x.
Proof.
  rewrite !number_nan. intros A B H. apply le64_ov. repeat split; auto. destruct (Rle_lt_dec (ov y) (ov x)) as [L|L]; [exact L|].
  exfalso. assert (f64_ltb x y = true) by (apply ltb_iff; auto). congruence.
Qed.
Lemma geb_false x y : number x -> number y -> f64_geb x y = false -> lt64 x y.
Proof.
  intros A B H. apply ltb_lt64. apply number_nan in A. apply number_nan in B. apply ltb_iff. repeat split; auto.
  destruct (Rlt_le_dec (ov x) (ov y)) as [L|L]; [exact L|]. exfalso.
  assert (f64_geb x y = true) by (apply geb_iff; apply le64_ov; auto). congruence.
Qed.

(** ** Rounding with overflow *)
Definition cap (z : R) : R := if Rlt_bool (Rabs z) top then z else if Rlt_bool z 0 then - top else top.
Lemma cap_mono x y : x <= y -> cap x <= cap y.
Proof.
  intros H. pose proof top_pos. unfold cap.
  destruct (Rlt_bool_spec (Rabs x) top) as [A|A], (Rlt_bool_spec (Rabs y) top) as [B|B];
    try (apply Rabs_def2 in A); try (apply Rabs_def2 in B).
  - exact H.
  - destruct (Rlt_bool_spec y 0) as [N|N]; [|lra]. rewrite Rabs_left in B by exact N. lra.
  - destruct (Rlt_bool_spec x 0) as [N|N]; [lra|]. rewrite Rabs_pos_eq in A by exact N. lra.
  - destruct (Rlt_bool_spec x 0) as [N|N], (Rlt_bool_spec y 0) as [N'|N']; lra.
Qed.
Lemma sign_pos (x : f64) : Bsign x = false -> 0 <= B2R x.
Proof. destruct x as [s|s| |s m e B]; cbn; intros; subst; try lra. apply F2R_ge_0. cbn. lia. Qed.
Lemma sign_neg (x : f64) : Bsign x = true -> B2R x <= 0.
Proof. destruct x as [s|s| |s m e B]; cbn; intros; subst; try lra. apply F2R_le_0. cbn. lia. Qed.
Lemma fmt0 : fmt 0. Proof. apply generic_format_0. Qed.
Lemma overflowed (z : f64) s v : B2SF z = binary_overflow 53 1024 mode_NE s -> top <= Rabs (rne v) -> (if s then v <= 0 else 0 <= v) ->
  ov z = cap (rne v) /\ is_nan z = false.
Proof.
  intros O B S. apply inf_of_overflow in O. subst z. pose proof top_pos. split; [|reflexivity].
  unfold cap. rewrite Rlt_bool_false by exact B. cbn [ov]. destruct s.
  - assert (rne v <= 0) by (apply rne_le; [apply fmt0|exact S]). destruct (Rlt_bool_spec (rne v) 0) as [N|N]; [reflexivity|].
    replace (rne v) with 0 in B by lra. rewrite Rabs_R0 in B. lra.
  - assert (0 <= rne v) by (apply rne_ge; [apply fmt0|exact S]). now rewrite Rlt_bool_false.
Qed.
Lemma cap_small v : Rabs v < top -> cap v = v.
Proof. intros H. unfold cap. now rewrite Rlt_bool_true. Qed.
Lemma fin_not_nan (x : f64) : is_finite x = true -> is_nan x = false.
Proof. now destruct x. Qed.

Lemma ov_plus x y : is_finite x = true -> is_finite y = true ->
  ov (Bplus mode_NE x y) = cap (rne (B2R x + B2R y)) /\ is_nan (Bplus mode_NE x y) = false.
Proof.
  intros FX FY. pose proof (Bplus_correct 53 1024 prec53 emax53 mode_NE x y FX FY) as H.
  destruct (Rlt_bool_spec (Rabs (rne (B2R x + B2R y))) top) as [L|L].
  - destruct H as (E & F & _). rewrite ov_fin, E, cap_small by assumption. split; [reflexivity|now apply fin_not_nan].
  - destruct H as (O & S). eapply overflowed; [exact O|exact L|]. destruct (Bsign x) eqn:SX.
    + pose proof (sign_neg x SX). pose proof (sign_neg y (eq_sym S)). lra.
    + pose proof (sign_pos x SX). pose proof (sign_pos y (eq_sym S)). lra.
Qed.
Lemma ov_minus x y : is_finite x = true -> is_finite y = true ->
  ov (Bminus mode_NE x y) = cap (rne (B2R x - B2R y)) /\ is_nan (Bminus mode_NE x y) = false.
Proof.
  intros FX FY. pose proof (Bminus_correct 53 1024 prec53 emax53 mode_NE x y FX FY) as H.
  destruct (Rlt_bool_spec (Rabs (rne (B2R x - B2R y))) top) as [L|L].
  - destruct H as (E & F & _). rewrite ov_fin, E, cap_small by assumption. split; [reflexivity|now apply fin_not_nan].
  - destruct H as (O & S). eapply overflowed; [exact O|exact L|]. destruct (Bsign x) eqn:SX.
    + pose proof (sign_neg x SX). assert (SY : Bsign y = false) by (destruct (Bsign y); [discriminate|reflexivity]). pose proof (sign_pos y SY). lra.
    + pose proof (sign_pos x SX). assert (SY : Bsign y = true) by (destruct (Bsign y); [reflexivity|discriminate]). pose proof (sign_neg y SY). lra.
Qed.
Lemma ov_mult x y : is_finite x = true -> is_finite y = true ->
  ov (Bmult mode_NE x y) = cap (rne (B2R x * B2R y)) /\ is_nan (Bmult mode_NE x y) = false.
Proof.
  intros FX FY. pose proof (Bmult_correct 53 1024 prec53 emax53 mode_NE x y) as H.
  destruct (Rlt_bool_spec (Rabs (rne (B2R x * B2R y))) top) as [L|L].
  - destruct H as (E & F & _). rewrite FX, FY in F. rewrite ov_fin, E, cap_small by assumption. split; [reflexivity|now apply fin_not_nan].
  - eapply overflowed; [exact H|exact L|]. destruct (Bsign x) eqn:SX, (Bsign y) eqn:SY; cbn [xorb];
      try (pose proof (sign_neg x SX)); try (pose proof (sign_pos x SX)); try (pose proof (sign_neg y SY)); try (pose proof (sign_pos y SY)); nra.
Qed.
Lemma ov_div x y : is_finite x = true -> is_finite y = true -> B2R y <> 0 ->
  ov (Bdiv mode_NE x y) = cap (rne (B2R x / B2R y)) /\ is_nan (Bdiv mode_NE x y) = false.
Proof.
  intros FX FY NZ. pose proof (Bdiv_correct 53 1024 prec53 emax53 mode_NE x y NZ) as H.
  destruct (Rlt_bool_spec (Rabs (rne (B2R x / B2R y))) top) as [L|L].
  - destruct H as (E & F & _). rewrite FX in F. rewrite ov_fin, E, cap_small by assumption. split; [reflexivity|now apply fin_not_nan].
  - eapply overflowed; [exact H|exact L|].
    assert (P : 0 < B2R y -> 0 < / B2R y) by apply Rinv_0_lt_compat.
    assert (N : B2R y < 0 -> / B2R y < 0) by apply Rinv_lt_0_compat. unfold Rdiv.
    destruct (Bsign x) eqn:SX, (Bsign y) eqn:SY; cbn [xorb];
      try (pose proof (sign_neg x SX)); try (pose proof (sign_pos x SX)); try (pose proof (sign_neg y SY)); try (pose proof (sign_pos y SY)).
    + assert (/ B2R y < 0) by (apply N; lra). nra.
    + assert (0 < / B2R y) by (apply P; lra). nra.
    + assert (/ B2R y < 0) by (apply N; lra). nra.
    + assert (0 < / B2R y) by (apply P; lra). nra.
Qed.

(** ** Monotonicity *)
Lemma fin_cases (x : f64) : is_nan x = false -> is_finite x = false -> x = B754_infinity true \/ x = B754_infinity false.
Proof. destruct x as [|[|]| |]; try discriminate; auto. Qed.
Lemma plus_number x y : number x -> finite y -> number (Bplus mode_NE x y).
Proof.
  rewrite !number_nan. intros N F. destruct (is_finite x) eqn:FX; [now apply ov_plus|].
  destruct (fin_cases x N FX); subst; destruct y as [|[|]| |]; try discriminate; reflexivity.
Qed.
Lemma plus_mono x x' y : le64 x x' -> finite y -> le64 (Bplus mode_NE x y) (Bplus mode_NE x' y).
Proof.
  intros L F. destruct (le64_number _ _ L) as (N & N'). 
  pose proof (plus_number x y N F) as M. pose proof (plus_number x' y N' F) as M'.
  apply number_nan in N, N', M, M'. apply le64_ov. split; [exact M|split; [exact M'|]].
  destruct (is_finite x) eqn:FX, (is_finite x') eqn:FX'.
  - destruct (ov_plus x y FX F) as (-> & _), (ov_plus x' y FX' F) as (-> & _). apply cap_mono, rne_mono.
    apply le64_fin in L; [lra|assumption|assumption].
  - destruct (fin_cases x' N' FX'); subst.
    + apply le64_ov in L as (_ & _ & L). cbn [ov] in L. rewrite ov_fin in L by assumption. pose proof (fin_bound x). lra.
    + replace (Bplus mode_NE (B754_infinity false) y) with (B754_infinity false : f64) by (destruct y as [|[|]| |]; try discriminate; reflexivity).
      apply ov_bound.
  - destruct (fin_cases x N FX); subst.
    + replace (Bplus mode_NE (B754_infinity true) y) with (B754_infinity true : f64) by (destruct y as [|[|]| |]; try discriminate; reflexivity).
      apply ov_bound.
    + apply le64_ov in L as (_ & _ & L). cbn [ov] in L. rewrite ov_fin in L by assumption. pose proof (fin_bound x'). lra.
  - destruct (fin_cases x N FX); subst.
    + replace (Bplus mode_NE (B754_infinity true) y) with (B754_infinity true : f64) by (destruct y as [|[|]| |]; try discriminate; reflexivity).
      apply ov_bound.
    + destruct (fin_cases x' N' FX'); subst; [|lra]. apply le64_ov in L as (_ & _ & L). cbn [ov] in L. pose proof top_pos. lra.
Qed.
Lemma inf_mult c s : positive c -> Bmult mode_NE c (B754_infinity s) = B754_infinity s /\ Bmult mode_NE (B754_infinity s) c = B754_infinity s.
Proof.
  intros (F & P). destruct c as [sc|sc| |sc m e B]; try discriminate; cbn in P; [lra|].
  assert (sc = false) as ->. { destruct sc; [|reflexivity]. exfalso. assert (F2R (Float radix2 (Zneg m) e) <= 0) by (apply F2R_le_0; cbn; lia). cbn in *. lra. }
  destruct s; split; reflexivity.
Qed.
Lemma mult_number c x : positive c -> number x -> number (Bmult mode_NE c x) /\ number (Bmult mode_NE x c).
Proof.
  intros C N. apply number_nan in N. destruct (is_finite x) eqn:FX.
  - rewrite !number_nan. split; apply ov_mult; auto; apply C.
  - destruct (fin_cases x N FX); subst; destruct (inf_mult c true C) as (A & B), (inf_mult c false C) as (A' & B');
      rewrite ?A, ?B, ?A', ?B'; split; discriminate.
Qed.
Lemma mult_mono c x x' : positive c -> le64 x x' ->
  le64 (Bmult mode_NE c x) (Bmult mode_NE c x') /\ le64 (Bmult mode_NE x c) (Bmult mode_NE x' c).
Proof.
  intros C L. destruct (le64_number _ _ L) as (N & N'). destruct (mult_number c x C N) as (M1 & M2), (mult_number c x' C N') as (M1' & M2').
  destruct (inf_mult c true C) as (A & B), (inf_mult c false C) as (A' & B'). destruct C as (FC & PC).
  apply number_nan in N, N', M1, M2, M1', M2'. rewrite !le64_ov.
  destruct (is_finite x) eqn:FX, (is_finite x') eqn:FX'.
  - destruct (ov_mult c x FC FX) as (E1 & _), (ov_mult c x' FC FX') as (E2 & _), (ov_mult x c FX FC) as (E3 & _), (ov_mult x' c FX' FC) as (E4 & _).
    rewrite E1, E2, E3, E4. apply le64_fin in L; [|assumption|assumption].
    repeat split; auto; apply cap_mono, rne_mono; nra.
  - destruct (fin_cases x' N' FX'); subst.
    + apply le64_ov in L as (_ & _ & L). cbn [ov] in L. rewrite ov_fin in L by assumption. pose proof (fin_bound x). lra.
    + rewrite A', B' in *. repeat split; auto; apply ov_bound.
  - destruct (fin_cases x N FX); subst.
    + rewrite A, B in *. repeat split; auto; apply ov_bound.
    + apply le64_ov in L as (_ & _ & L). cbn [ov] in L. rewrite ov_fin in L by assumption. pose proof (fin_bound x'). lra.
  - destruct (fin_cases x N FX); subst.
    + rewrite A, B in *. repeat split; auto; apply ov_bound.
    + destruct (fin_cases x' N' FX'); subst; [|rewrite A', B' in *; repeat split; auto; lra].
      apply le64_ov in L as (_ & _ & L). cbn [ov] in L. pose proof top_pos. lra.
Qed.
Lemma plus_mono_r x y y' : le64 y y' -> finite x -> le64 (Bplus mode_NE x y) (Bplus mode_NE x y').
Proof.
  intros L F. assert (C : forall a, number a -> ov (Bplus mode_NE x a) = ov (Bplus mode_NE a x) /\ is_nan (Bplus mode_NE x a) = false).
  { intros a N. apply number_nan in N. destruct (is_finite a) eqn:FA.
    - destruct (ov_plus x a F FA) as (-> & ?), (ov_plus a x FA F) as (-> & _). now rewrite Rplus_comm.
    - destruct (fin_cases a N FA); subst; destruct x as [|[|]| |]; try discriminate; split; reflexivity. }
  pose proof (plus_mono y y' x L F) as M. destruct (le64_number _ _ L) as (N & N'). destruct (C y N) as (E & ?), (C y' N') as (E' & ?).
  apply le64_ov in M as (_ & _ & M). apply le64_ov. rewrite E, E'. auto.
Qed.

Lemma number_fin x : finite x -> number x.
Proof. intros F ->. discriminate. Qed.
Lemma minus_number x y : number x -> finite y -> number (Bminus mode_NE x y).
Proof.
  rewrite !number_nan. intros N F. destruct (is_finite x) eqn:FX; [now apply ov_minus|].
  destruct (fin_cases x N FX); subst; destruct y as [|[|]| |]; try discriminate; reflexivity.
Qed.
Lemma minus_mono x x' y : le64 x x' -> finite y -> le64 (Bminus mode_NE x y) (Bminus mode_NE x' y).
Proof.
  intros L F. destruct (le64_number _ _ L) as (N & N'). 
  pose proof (minus_number x y N F) as M. pose proof (minus_number x' y N' F) as M'.
  apply number_nan in N, N', M, M'. apply le64_ov. split; [exact M|split; [exact M'|]].
  assert (I : forall s, Bminus mode_NE (B754_infinity s) y = B754_infinity s) by (intros [|]; destruct y as [|[|]| |]; try discriminate; reflexivity).
  destruct (is_finite x) eqn:FX, (is_finite x') eqn:FX'.
  - destruct (ov_minus x y FX F) as (-> & _), (ov_minus x' y FX' F) as (-> & _). apply cap_mono, rne_mono.
    apply le64_fin in L; [lra|assumption|assumption].
  - destruct (fin_cases x' N' FX'); subst; rewrite I.
    + apply le64_ov in L as (_ & _ & L). cbn [ov] in L. rewrite ov_fin in L by assumption. pose proof (fin_bound x). lra.
    + apply ov_bound.
  - destruct (fin_cases x N FX); subst; rewrite I.
    + apply ov_bound.
    + apply le64_ov in L as (_ & _ & L). cbn [ov] in L. rewrite ov_fin in L by assumption. pose proof (fin_bound x'). lra.
  - destruct (fin_cases x N FX); subst; rewrite I.
    + apply ov_bound.
    + destruct (fin_cases x' N' FX'); subst; rewrite I; [|lra]. apply le64_ov in L as (_ & _ & L). cbn [ov] in L. pose proof top_pos. cbn [ov]. lra.
Qed.
Lemma inf_div c s : positive c -> Bdiv mode_NE (B754_infinity s) c = B754_infinity s.
Proof.
  intros (F & P). destruct c as [sc|sc| |sc m e B]; try discriminate; cbn in P; [lra|].
  assert (sc = false) as ->. { destruct sc; [|reflexivity]. exfalso. assert (F2R (Float radix2 (Zneg m) e) <= 0) by (apply F2R_le_0; cbn; lia). cbn in *. lra. }
  destruct s; reflexivity.
Qed.
Lemma div_number x c : positive c -> number x -> number (Bdiv mode_NE x c).
Proof.
  intros C N. apply number_nan in N. apply number_nan. destruct (is_finite x) eqn:FX.
  - apply ov_div; auto; destruct C; [assumption|lra].
  - destruct (fin_cases x N FX); subst; now rewrite inf_div.
Qed.
Lemma div_mono c x x' : positive c -> le64 x x' -> le64 (Bdiv mode_NE x c) (Bdiv mode_NE x' c).
Proof.
  intros C L. destruct (le64_number _ _ L) as (N & N'). pose proof (div_number x c C N) as M. pose proof (div_number x' c C N') as M'.
  pose proof (fun s => inf_div c s C) as I. destruct C as (FC & PC).
  apply number_nan in N, N', M, M'. apply le64_ov. split; [exact M|split; [exact M'|]].
  destruct (is_finite x) eqn:FX, (is_finite x') eqn:FX'.
  - destruct (ov_div x c FX FC ltac:(lra)) as (-> & _), (ov_div x' c FX' FC ltac:(lra)) as (-> & _). apply le64_fin in L; [|assumption|assumption].
    apply cap_mono, rne_mono. apply Rmult_le_compat_r; [|exact L]. left. now apply Rinv_0_lt_compat.
  - destruct (fin_cases x' N' FX'); subst; rewrite I.
    + apply le64_ov in L as (_ & _ & L). cbn [ov] in L. rewrite ov_fin in L by assumption. pose proof (fin_bound x). lra.
    + apply ov_bound.
  - destruct (fin_cases x N FX); subst; rewrite I.
    + apply ov_bound.
    + apply le64_ov in L as (_ & _ & L). cbn [ov] in L. rewrite ov_fin in L by assumption. pose proof (fin_bound x'). lra.
  - destruct (fin_cases x N FX); subst; rewrite I.
    + apply ov_bound.
    + destruct (fin_cases x' N' FX'); subst; rewrite I; [|lra]. apply le64_ov in L as (_ & _ & L). cbn [ov] in L. pose proof top_pos. cbn [ov]. lra.
Qed.

(** ** The constants *)
Lemma cst0 : f64_cst L0 = zero. Proof. reflexivity. Qed.
Lemma cst_val l m e : f64_cst l = f64_lit m e -> (Z.abs m <= 2 ^ 53)%Z -> (-1074 <= e <= 900)%Z ->
  B2R (f64_cst l) = IZR m * bpow radix2 e /\ is_finite (f64_cst l) = true.
Proof. intros -> M E. now apply f64_lit_exact. Qed.
Lemma cst1 : B2R (f64_cst L1) = 1 /\ is_finite (f64_cst L1) = true.
Proof. destruct (cst_val L1 1 0 eq_refl ltac:(lia) ltac:(lia)) as (E & F). split; [|exact F]. rewrite E. cbn. lra. Qed.
Lemma cst_tol : B2R (f64_cst Ltol) = 7378697629483821 * / IZR (2 ^ 66) /\ is_finite (f64_cst Ltol) = true.
Proof. destruct (cst_val Ltol 7378697629483821 (-66) eq_refl ltac:(lia) ltac:(lia)) as (E & F). split; [|exact F]. rewrite E. reflexivity. Qed.
Lemma le_zero x : le64 zero x <-> number x /\ 0 <= ov x.
Proof. rewrite le64_ov, number_nan. cbn [is_nan zero ov B2R]. intuition. Qed.
Lemma sign_abs (x : f64) : 0 <= ov x -> ov (Babs x) = ov x.
Proof.
  pose proof top_pos. destruct x as [s|[|]| |s m e B]; cbn [ov Babs B2R]; intros; try reflexivity; try lra.
  destruct s; [|reflexivity]. exfalso. assert (F2R (Float radix2 (Zneg m) e) < 0) by (apply F2R_lt_0; cbn; lia). cbn in *. lra.
Qed.
Lemma recip_positive g : finite g -> B2R (f64_cst Ltol) <= B2R g -> positive (Bdiv mode_NE (f64_cst L1) g).
Proof.
  intros F L. destruct cst1 as (E1 & F1). destruct cst_tol as (ET & FT). rewrite ET in L.
  assert (P : / 20000 <= B2R g) by lra.
  pose proof (Bdiv_correct 53 1024 prec53 emax53 mode_NE (f64_cst L1) g ltac:(lra)) as H. rewrite E1 in H.
  assert (U : 1 / B2R g <= 20000).
  { unfold Rdiv. rewrite Rmult_1_l. rewrite <- (Rinv_inv 20000). apply Rinv_le_contravar; lra. }
  assert (D : bpow radix2 (-1024) <= 1 / B2R g).
  { unfold Rdiv. rewrite Rmult_1_l. change (-1024)%Z with (- (1024))%Z. rewrite bpow_opp. apply Rinv_le_contravar; [lra|].
    pose proof (fin_bound g). lra. }
  assert (RU : rne (1 / B2R g) <= 20000) by (apply rne_le; [apply (fmt_int 20000); lia|exact U]).
  assert (RD : bpow radix2 (-1024) <= rne (1 / B2R g)).
  { apply rne_ge; [|exact D]. replace (bpow radix2 (-1024)) with (IZR 1 * bpow radix2 (-1024)) by (rewrite Rmult_1_l; reflexivity). apply fmt_dyadic; lia. }
  pose proof (bpow_gt_0 radix2 (-1024)).
  rewrite Rlt_bool_true in H.
  - destruct H as (E & FF & _). rewrite F1 in FF. split; [exact FF|]. rewrite E. lra.
  - rewrite Rabs_pos_eq by lra. apply Rle_lt_trans with (bpow radix2 15); [change (bpow radix2 15) with 32768; lra|]. apply bpow_lt. lia.
Qed.
