(** Order of the remaining curves at binary64 (C90-C92). *)
From Coq Require Import ZArith List Reals Lia Lra Psatz.
From Flocq Require Import Core IEEE754.BinarySingleNaN.
From Verif Require Import M_Base M_F64 M_Curve M_CurveF64 S_F64 S_Order P_S15 P_F64 P_Curve3.
Import ListNotations.
Open Scope R_scope.
Notation tol64 := (f64_cst Ltol).
Ltac ev := unfold eval_parametric; cbn [nth_error f64_ops f_lit f_neg f_abs f_add f_sub f_mul f_div f_lt f_ge f_max f_pow f_log10 f_exp];
  rewrite ?cst0.

Lemma below x y z : le64 x y -> f64_ltb y z = true -> f64_ltb x z = true.
Proof. rewrite !ltb_iff, le64_ov. intuition lra. Qed.
Lemma above x y z : f64_ltb z x = true -> le64 x y -> f64_ltb z y = true.
Proof. rewrite !ltb_iff, le64_ov. intuition lra. Qed.

(** At least the tolerance: what the guards let through. *)
Lemma tol_pos g : finite g -> le64 tol64 g -> positive g /\ B2R tol64 <= B2R g.
Proof.
  intros F L. destruct cst_tol as (_ & FT). apply le64_fin in L; [|exact FT|exact F]. pose proof tol64_range. split; [split; [exact F|lra]|exact L].
Qed.
Lemma recip_tol g : finite g -> le64 tol64 g -> positive (Bdiv mode_NE (f64_cst L1) g).
Proof. intros F L. apply recip_positive; [exact F|now apply tol_pos]. Qed.
Lemma abs_tol g : finite g -> le64 tol64 g -> f64_ltb (Babs g) tol64 = false.
Proof.
  intros F L. destruct (tol_pos g F L) as ((_ & P) & T). apply Bool.not_true_iff_false. rewrite ltb_iff. intros (_ & _ & H).
  rewrite sign_abs in H by (rewrite ov_fin by exact F; lra). rewrite !ov_fin in H by (exact F || apply cst_tol). lra.
Qed.
Lemma not_lt x y : le64 y x -> f64_ltb x y = false.
Proof. rewrite le64_ov. intros (_ & _ & L). apply Bool.not_true_iff_false. rewrite ltb_iff. intros (_ & _ & H). lra. Qed.
Lemma ov_pos_zero c : positive c -> le64 zero c.
Proof. intros (F & P). apply le64_fin; [reflexivity|exact F|]. cbn. lra. Qed.
Lemma div_nonneg x a : positive a -> le64 zero x -> le64 zero (Bdiv mode_NE x a).
Proof.
  intros A X. apply le64_trans with (Bdiv mode_NE zero a); [|now apply div_mono].
  destruct A as (F & P). destruct a as [s|s| |s m e B]; try discriminate; [cbn in P; lra|].
  destruct s; apply le64_fin; try reflexivity; cbn; lra.
Qed.
Lemma minus_nonneg x b : le64 zero x -> finite b -> le64 b zero -> le64 zero (Bminus mode_NE x b).
Proof.
  intros X F B. apply le64_trans with (Bminus mode_NE zero b); [|now apply minus_mono].
  destruct (ov_minus zero b eq_refl F) as (E & N). apply le64_ov. split; [reflexivity|]. split; [exact N|]. rewrite E. cbn [zero ov B2R].
  apply le64_fin in B; [|exact F|reflexivity]. cbn in B. unfold cap. pose proof top_pos.
  assert (P : 0 <= rne (0 - B2R b)) by (apply rne_ge; [apply fmt0|lra]).
  destruct (Rlt_bool _ _); [exact P|]. rewrite Rlt_bool_false by exact P. lra.
Qed.
Lemma minus_pos r c : finite c -> le64 c r -> le64 zero (Bminus mode_NE r c).
Proof.
  intros F L. apply le64_trans with (Bminus mode_NE c c); [|now apply minus_mono].
  destruct (ov_minus c c F F) as (E & N). apply le64_ov. split; [reflexivity|]. split; [exact N|]. rewrite E. cbn [zero ov B2R].
  replace (B2R c - B2R c) with 0 by ring. rewrite round_0 by apply valid_rnd_round_mode. rewrite cap_small by (rewrite Rabs_R0; apply top_pos). lra.
Qed.
Lemma minus_neg r c : finite c -> number r -> f64_ltb (Bminus mode_NE r c) zero = true -> le64 r c.
Proof.
  intros F N H. destruct (f64_geb r c) eqn:E.
  - apply geb_iff in E. rewrite not_lt in H by now apply minus_pos. discriminate.
  - apply geb_false in E; [apply E|exact N|now apply number_fin].
Qed.

Section Reversed.
Context (pow : f64 -> f64 -> f64) (lg ex : f64 -> f64) (MP : monotone_pow pow).
Notation O := (f64_ops pow lg ex).
(** The common part "(s ^ (1/g) - b) / a". *)
Notation root g a b s := (Bdiv mode_NE (Bminus mode_NE (pow s (Bdiv mode_NE (f64_cst L1) g)) b) a).
Lemma root_mono g a b s s' : finite g -> le64 tol64 g -> positive a -> finite b -> le64 zero s -> le64 s s' -> le64 (root g a b s) (root g a b s').
Proof. intros G T A B S L. apply div_mono; [exact A|]. apply minus_mono; [|exact B]. apply MP; [now apply recip_tol|exact S|exact L]. Qed.
Lemma root_nonneg g a b s : finite g -> le64 tol64 g -> positive a -> finite b -> le64 b zero -> le64 zero s -> le64 zero (root g a b s).
Proof.
  intros G T A B BZ S. apply div_nonneg; [exact A|]. apply minus_nonneg; [|exact B|exact BZ].
  apply (MP _ s s (recip_tol g G T) S). apply le64_refl. apply (le64_number _ _ S).
Qed.

Lemma type_m6_mono g a b c : finite g -> le64 tol64 g -> positive a -> finite b -> le64 b zero -> finite c ->
  increasing (eval_parametric O (-6) [g; a; b; c]).
Proof.
  intros G T A B BZ C r r' L. destruct (le64_number _ _ L) as (N & N'). ev. do 2 eexists. split; [reflexivity|]. split; [reflexivity|].
  destruct (f64_ltb (Babs a) tol64); [apply zero_zero|].
  pose proof (minus_mono r r' c L C) as LL. destruct (le64_number _ _ LL) as (M & M').
  destruct (f64_ltb (Bminus mode_NE r c) zero) eqn:E, (f64_ltb (Bminus mode_NE r' c) zero) eqn:E'.
  - apply zero_zero.
  - apply nonneg in E'; [|exact M']. now apply root_nonneg.
  - rewrite (below _ _ _ LL E') in E. discriminate.
  - apply nonneg in E; [|exact M]. now apply root_mono.
Qed.
Lemma type_m3_mono g a s c : finite g -> le64 tol64 g -> positive a -> finite c ->
  increasing (eval_parametric O (-3) [g; a; B754_zero s; c]).
Proof.
  intros G T A C r r' L. destruct (le64_number _ _ L) as (N & N'). ev. do 2 eexists. split; [reflexivity|]. split; [reflexivity|].
  destruct (f64_ltb (Babs a) tol64); [apply zero_zero|].
  assert (Q : le64 (Bdiv mode_NE (Bopp (B754_zero s)) a) zero /\ le64 zero (Bdiv mode_NE (Bopp (B754_zero s)) a)).
  { destruct A as (F & P). destruct a as [t|t| |t m e B]; try discriminate; [cbn in P; lra|].
    split; (apply le64_fin; [now destruct s, t|now destruct s, t|destruct s, t; cbn; lra]). }
  destruct Q as (Q & Q'). assert (BZ : le64 (B754_zero s) zero) by (apply le64_fin; try reflexivity; cbn; lra).
  pose proof (minus_mono r r' c L C) as LL.
  assert (U : forall t, le64 zero (if f64_ltb zero t then root g a (B754_zero s) t else zero)).
  { intros t. destruct (f64_ltb zero t) eqn:E; [|apply zero_zero]. apply pos_not_neg in E. now apply root_nonneg. }
  destruct (f64_geb r c) eqn:E.
  - rewrite (ge_up _ _ _ E L). destruct (f64_ltb zero (Bminus mode_NE r c)) eqn:P; [|apply U].
    rewrite (above _ _ _ P LL). apply pos_not_neg in P. now apply root_mono.
  - destruct (f64_geb r' c).
    + apply le64_trans with zero; [exact Q|apply U].
    + apply le64_refl. apply (le64_number _ _ Q).
Qed.
Lemma type_m4_mono g a b c d : finite g -> le64 tol64 g -> positive a -> finite b -> finite c -> le64 tol64 c -> finite d ->
  let disc := if f64_ltb (Bplus mode_NE (Bmult mode_NE a d) b) zero then zero else pow (Bplus mode_NE (Bmult mode_NE a d) b) g in
  (forall y, eval_parametric O (-4) [g; a; b; c; d] disc = Some y -> le64 (Bdiv mode_NE disc c) y) ->
  increasing (eval_parametric O (-4) [g; a; b; c; d]).
Proof.
  intros G T A B C TC D disc BR r r' L. destruct (le64_number _ _ L) as (N & N'). destruct (tol_pos c C TC) as (CP & _).
  assert (ZD : le64 zero disc).
  { unfold disc. destruct (f64_ltb _ zero) eqn:E; [apply zero_zero|]. assert (M : number (Bplus mode_NE (Bmult mode_NE a d) b)).
    { apply plus_number; [|exact B]. exact (proj1 (mult_number a d A (number_fin _ D))). }
    apply nonneg in E; [|exact M]. apply (MP g _ _ (proj1 (tol_pos g G T)) E (le64_refl _ M)). }
  pose proof (proj2 (le64_number _ _ ZD)) as ND.
  unfold eval_parametric in *. cbn [nth_error f64_ops f_lit f_neg f_abs f_add f_sub f_mul f_div f_lt f_ge f_max f_pow f_log10 f_exp] in *. rewrite ?cst0 in *.
  fold disc in BR |- *. rewrite (abs_tol g G T), (abs_tol c C TC) in *. cbn [orb] in *.
  do 2 eexists. split; [reflexivity|]. split; [reflexivity|].
  assert (DD : f64_geb disc disc = true) by (apply geb_iff; now apply le64_refl). rewrite DD in BR. specialize (BR _ eq_refl).
  set (U t := if f64_ltb (Babs a) tol64 then zero else root g a b t) in *.
  change (le64 (Bdiv mode_NE disc c) (U disc)) in BR. fold (U r) (U r').
  assert (UM : forall t t', le64 zero t -> le64 t t' -> le64 (U t) (U t')).
  { intros t t' Z K. unfold U. destruct (f64_ltb (Babs a) tol64); [apply zero_zero|]. now apply root_mono. }
  destruct (f64_geb r disc) eqn:E.
  - rewrite (ge_up _ _ _ E L). apply geb_iff in E. apply UM; [now apply le64_trans with (1 := ZD)|exact L].
  - apply geb_false in E; [|exact N|exact ND]. destruct E as (E & _). destruct (f64_geb r' disc) eqn:E'.
    + apply geb_iff in E'. apply le64_trans with (Bdiv mode_NE disc c); [now apply div_mono|]. apply le64_trans with (1 := BR). now apply UM.
    + now apply div_mono.
Qed.
Lemma type_m5_mono g a b c d e f : finite g -> le64 tol64 g -> positive a -> finite b -> finite c -> le64 tol64 c -> finite e -> finite f ->
  let disc := Bplus mode_NE (Bmult mode_NE c d) f in
  number disc -> le64 e disc \/ le64 b zero ->
  (forall y, eval_parametric O (-5) [g; a; b; c; d; e; f] disc = Some y -> le64 (Bdiv mode_NE (Bminus mode_NE disc f) c) y) ->
  increasing (eval_parametric O (-5) [g; a; b; c; d; e; f]).
Proof.
  intros G T A B C TC E0 F0 disc ND ALT BR r r' L. destruct (le64_number _ _ L) as (N & N'). destruct (tol_pos c C TC) as (CP & _).
  unfold eval_parametric in *. cbn [nth_error f64_ops f_lit f_neg f_abs f_add f_sub f_mul f_div f_lt f_ge f_max f_pow f_log10 f_exp] in *. rewrite ?cst0 in *.
  fold disc in BR |- *. rewrite (abs_tol g G T), (abs_tol c C TC) in *. cbn [orb] in *.
  do 2 eexists. split; [reflexivity|]. split; [reflexivity|].
  assert (DD : f64_geb disc disc = true) by (apply geb_iff; now apply le64_refl). rewrite DD in BR. specialize (BR _ eq_refl).
  set (U t := if f64_ltb (Bminus mode_NE t e) zero then zero else if f64_ltb (Babs a) tol64 then zero else root g a b (Bminus mode_NE t e)) in *.
  change (le64 (Bdiv mode_NE (Bminus mode_NE disc f) c) (U disc)) in BR. fold (U r) (U r').
  assert (UM : forall t t', le64 disc t -> le64 t t' -> le64 (U t) (U t')).
  { intros t t' D K. destruct (le64_number _ _ K) as (NT & NT'). unfold U. pose proof (minus_mono t t' e K E0) as KK. destruct (le64_number _ _ KK) as (M & M').
    destruct (f64_ltb (Babs a) tol64); [destruct (f64_ltb (Bminus mode_NE t e) zero), (f64_ltb (Bminus mode_NE t' e) zero); apply zero_zero|].
    destruct (f64_ltb (Bminus mode_NE t e) zero) eqn:X, (f64_ltb (Bminus mode_NE t' e) zero) eqn:X'.
    - apply zero_zero.
    - destruct ALT as [ALT|ALT].
      + rewrite not_lt in X; [discriminate|]. apply minus_pos; [exact E0|]. now apply le64_trans with disc.
      + apply nonneg in X'; [|exact M']. now apply root_nonneg.
    - rewrite (below _ _ _ KK X') in X. discriminate.
    - apply nonneg in X; [|exact M]. now apply root_mono. }
  destruct (f64_geb r disc) eqn:E.
  - rewrite (ge_up _ _ _ E L). apply geb_iff in E. now apply UM.
  - apply geb_false in E; [|exact N|exact ND]. destruct E as (E & _). destruct (f64_geb r' disc) eqn:E'.
    + apply geb_iff in E'. apply le64_trans with (Bdiv mode_NE (Bminus mode_NE disc f) c); [apply div_mono; [exact CP|now apply minus_mono]|].
      apply le64_trans with (1 := BR). apply UM; [now apply le64_refl|exact E'].
    + apply div_mono; [exact CP|]. now apply minus_mono.
Qed.
End Reversed.

(** ** Where -3 and -6 fail *)
Lemma minus_self c : finite c -> Bminus mode_NE c c = zero.
Proof.
  intros F. pose proof (Bminus_correct 53 1024 prec53 emax53 mode_NE c c F F) as H.
  replace (B2R c - B2R c) with 0 in H by ring. rewrite round_0 in H by apply valid_rnd_round_mode. rewrite Rabs_R0, Rlt_bool_true in H by apply top_pos.
  destruct H as (V & FF & S). rewrite Rcompare_Eq in S by reflexivity.
  assert (SS : Bsign (Bminus mode_NE c c) = false) by (rewrite S; now destruct (Bsign c)).
  apply B2R_Bsign_inj; [exact FF|reflexivity|now rewrite V|now rewrite SS].
Qed.
Lemma inf_le x : number x -> le64 (B754_infinity true) x.
Proof. intros N. apply number_nan in N. destruct x as [|[|]| |]; try discriminate; exact I. Qed.
Lemma type_m3_not_mono pow lg ex g a b c : le64 tol64 (Babs a) -> finite c -> lt64 zero (Bdiv mode_NE (Bopp b) a) ->
  ~ increasing (eval_parametric (f64_ops pow lg ex) (-3) [g; a; b; c]).
Proof.
  intros A C (_ & P) H. destruct (H _ _ (inf_le c (number_fin _ C))) as (y & y' & E & E' & L). revert E E'. ev.
  rewrite (not_lt _ _ A). assert (f64_geb (B754_infinity true) c = false) as -> by (now destruct c as [|[|]| |]).
  assert (f64_geb c c = true) as -> by (apply geb_iff; now apply le64_refl, number_fin). rewrite minus_self by exact C.
  assert (f64_ltb zero zero = false) as -> by reflexivity. intros [= <-] [= <-]. now apply P.
Qed.
Lemma type_m6_not_mono pow lg ex g a b c : le64 tol64 (Babs a) -> finite c ->
  pow zero (Bdiv mode_NE (f64_cst L1) g) = zero -> lt64 (Bdiv mode_NE (Bminus mode_NE zero b) a) zero ->
  ~ increasing (eval_parametric (f64_ops pow lg ex) (-6) [g; a; b; c]).
Proof.
  intros A C PZ (_ & P) H. destruct (H _ _ (inf_le c (number_fin _ C))) as (y & y' & E & E' & L). revert E E'. ev.
  rewrite (not_lt _ _ A). assert (Bminus mode_NE (B754_infinity true) c = B754_infinity true) as -> by (destruct c as [|[|]| |]; try discriminate C; reflexivity).
  rewrite minus_self by exact C. assert (f64_ltb (B754_infinity true) zero = true) as -> by reflexivity.
  assert (f64_ltb zero zero = false) as -> by reflexivity. rewrite PZ. intros [= <-] [= <-]. now apply P.
Qed.

(** ** Decreasing operations *)
Lemma minus_number_r c x : finite c -> number x -> number (Bminus mode_NE c x).
Proof.
  rewrite !number_nan. intros F N. destruct (is_finite x) eqn:FX; [now apply ov_minus|].
  destruct (fin_cases x N FX); subst; destruct c as [|[|]| |]; try discriminate; reflexivity.
Qed.
Lemma minus_anti c x x' : finite c -> le64 x x' -> le64 (Bminus mode_NE c x') (Bminus mode_NE c x).
Proof.
  intros F L. destruct (le64_number _ _ L) as (N & N'). pose proof (minus_number_r c x F N) as M. pose proof (minus_number_r c x' F N') as M'.
  assert (I : forall s, Bminus mode_NE c (B754_infinity s) = B754_infinity (negb s)) by (intros [|]; destruct c as [|[|]| |]; try discriminate; reflexivity).
  apply number_nan in N, N', M, M'. apply le64_ov. split; [exact M'|split; [exact M|]]. apply le64_ov in L as (_ & _ & L).
  destruct (is_finite x) eqn:FX; [|destruct (fin_cases x N FX); subst; rewrite I; cbn [negb]].
  - destruct (is_finite x') eqn:FX'; [|destruct (fin_cases x' N' FX'); subst; rewrite I; cbn [negb]].
    + destruct (ov_minus c x F FX) as (-> & _), (ov_minus c x' F FX') as (-> & _). apply cap_mono, rne_mono. rewrite !ov_fin in L by assumption. lra.
    + cbn [ov] in L. rewrite ov_fin in L by assumption. pose proof (fin_bound x). lra.
    + apply ov_bound.
  - apply ov_bound.
  - pose proof (ov_bound x'). cbn [ov] in L. destruct (is_finite x') eqn:FX'.
    + rewrite ov_fin in L by assumption. pose proof (fin_bound x'). lra.
    + destruct (fin_cases x' N' FX'); subst; [cbn [ov] in L; pose proof top_pos; lra|]. rewrite I. apply Rle_refl.
Qed.
Lemma opp_anti x x' : le64 x x' -> le64 (Bopp x') (Bopp x).
Proof.
  assert (E : forall z : f64, ov (Bopp z) = - ov z /\ is_nan (Bopp z) = is_nan z).
  { intros z. split; [|now destruct z]. pose proof (B2R_Bopp _ _ z) as H. destruct z as [s|[|]| |s m e B]; try exact H; cbn [ov Bopp negb]; lra. }
  rewrite !le64_ov. destruct (E x) as (-> & ->), (E x') as (-> & ->). intuition lra.
Qed.
(** A positive number over larger and larger divisors. *)
Lemma div_anti c x x' : positive c -> lt64 zero x -> le64 x x' -> le64 (Bdiv mode_NE c x') (Bdiv mode_NE c x) /\ le64 zero (Bdiv mode_NE c x').
Proof.
  intros (F & P) PX L. apply ltb_lt64 in PX. apply ltb_iff in PX as (_ & N & PX). cbn [ov zero B2R] in PX.
  apply le64_ov in L as (_ & N' & L).
  assert (I : Bdiv mode_NE c (B754_infinity false) = zero).
  { destruct c as [s|s| |s m e B]; try discriminate; [cbn in P; lra|]. destruct s; [|reflexivity].
    exfalso. assert (F2R (Float radix2 (Zneg m) e) < 0) by (apply F2R_lt_0; cbn; lia). cbn in *. lra. }
  assert (D : forall z, is_nan z = false -> 0 < ov z -> le64 zero (Bdiv mode_NE c z)).
  { intros z NZ PZ. destruct (is_finite z) eqn:FZ.
    - rewrite ov_fin in PZ by exact FZ. destruct (ov_div c z F FZ ltac:(lra)) as (E & M). apply le64_ov. split; [reflexivity|]. split; [exact M|]. rewrite E.
      cbn [ov zero B2R]. pose proof top_pos. assert (Q : 0 <= rne (B2R c / B2R z)).
      { apply rne_ge; [apply fmt0|]. apply Rlt_le, Rdiv_lt_0_compat; lra. }
      unfold cap. destruct (Rlt_bool _ _); [exact Q|]. rewrite Rlt_bool_false by exact Q. lra.
    - destruct (fin_cases z NZ FZ); subst; [cbn [ov] in PZ; pose proof top_pos; lra|]. rewrite I. apply zero_zero. }
  split; [|apply D; [exact N'|lra]].
  destruct (is_finite x') eqn:FX'; [|destruct (fin_cases x' N' FX'); subst; [cbn [ov] in L; pose proof top_pos; lra|rewrite I; now apply D]].
  destruct (is_finite x) eqn:FX.
  2:{ exfalso. destruct (fin_cases x N FX); subst; cbn [ov] in *; [pose proof top_pos; lra|]. rewrite ov_fin in L by exact FX'. pose proof (fin_bound x'). lra. }
  rewrite !ov_fin in * by assumption. destruct (ov_div c x F FX ltac:(lra)) as (E & M), (ov_div c x' F FX' ltac:(lra)) as (E' & M').
  apply le64_ov. split; [exact M'|split; [exact M|]]. rewrite E, E'. apply cap_mono, rne_mono.
  apply Rmult_le_compat_l; [lra|]. apply Rinv_le_contravar; lra.
Qed.
Lemma one_cst : one = f64_cst L1. Proof. reflexivity. Qed.
Lemma one_fin : finite one. Proof. reflexivity. Qed.
Lemma one_minus x : le64 x one -> le64 zero (Bminus mode_NE one x).
Proof. intros L. rewrite <- (minus_self one one_fin). apply minus_anti; [exact one_fin|exact L]. Qed.
Lemma one_minus_le x : le64 zero x -> le64 (Bminus mode_NE one x) one.
Proof.
  intros L. apply le64_trans with (Bminus mode_NE one zero); [apply minus_anti; [exact one_fin|exact L]|].
  replace (Bminus mode_NE one zero) with one by (apply B2SF_inj; vm_compute; reflexivity). apply le64_refl, number_fin, one_fin.
Qed.
Lemma mult_nonneg c x : positive c -> le64 zero x -> le64 zero (Bmult mode_NE c x).
Proof.
  intros C X. apply le64_trans with (Bmult mode_NE c zero); [|now apply mult_mono].
  destruct (ov_mult c zero (proj1 C) eq_refl) as (E & N). apply le64_ov. split; [reflexivity|]. split; [exact N|]. rewrite E.
  change (B2R zero) with 0. rewrite Rmult_0_r, round_0 by apply valid_rnd_round_mode. rewrite cap_small by (rewrite Rabs_R0; apply top_pos). cbn. lra.
Qed.
Lemma plus_pos x c : le64 zero x -> positive c -> le64 c (Bplus mode_NE x c).
Proof.
  intros X (F & P). apply le64_trans with (Bplus mode_NE zero c); [|now apply plus_mono].
  apply le64_ov. destruct (ov_plus zero c eq_refl F) as (E0 & NN). rewrite E0. change (B2R zero) with 0. rewrite Rplus_0_l.
  rewrite round_generic by (try apply valid_rnd_round_mode; apply generic_format_B2R).
  rewrite cap_small by apply abs_B2R_lt_emax. rewrite ov_fin by exact F. split; [now apply fin_not_nan|]. split; [exact NN|lra].
Qed.
Lemma pos_lt c x : positive c -> le64 c x -> lt64 zero x.
Proof.
  intros (F & P) L. apply ltb_lt64, ltb_iff. apply le64_ov in L as (_ & N & L). rewrite ov_fin in L by exact F.
  split; [reflexivity|]. split; [exact N|]. cbn. lra.
Qed.

Lemma fin_of_ov x : is_nan x = false -> - top < ov x < top -> is_finite x = true.
Proof. destruct x as [|[|]| |]; try reflexivity; try discriminate; cbn [ov]; lra. Qed.
Lemma cap_rne_fin (x : f64) : cap (rne (B2R x)) = B2R x.
Proof.
  rewrite round_generic by (try apply valid_rnd_round_mode; apply generic_format_B2R). apply cap_small, abs_B2R_lt_emax.
Qed.
