(** s15Fixed16 conversions over the reals. *)
From Coq Require Import ZArith Reals Lia Lra Psatz ZifyBool.
From Flocq Require Import Core IEEE754.BinarySingleNaN.
From Verif Require Import M_Base M_F64.
From Verif Require Export S_S15.
Open Scope R_scope.

Notation fmt := (generic_format radix2 (SpecFloat.fexp 53 1024)).
Notation rne := (round radix2 (SpecFloat.fexp 53 1024) (round_mode mode_NE)).

Lemma fexp_eq : SpecFloat.fexp 53 1024 = FLT_exp (-1074) 53.
Proof. reflexivity. Qed.

#[local] Instance vfexp : Valid_exp (SpecFloat.fexp 53 1024).
Proof. rewrite fexp_eq. apply FLT_exp_valid. reflexivity. Qed.

(** Dyadic numbers that are doubles. *)
Lemma fmt_dyadic m e : (Z.abs m <= 2 ^ 53)%Z -> (-1074 <= e)%Z -> fmt (IZR m * bpow radix2 e).
Proof.
  intros Hm He. rewrite fexp_eq.
  destruct (Z.eq_dec (Z.abs m) (2 ^ 53)) as [E|E].
  - assert (m = 2 ^ 53 * Z.sgn m)%Z as -> by lia.
    rewrite mult_IZR. change (IZR (2 ^ 53)) with (bpow radix2 53).
    replace (bpow radix2 53 * IZR (Z.sgn m) * bpow radix2 e) with (F2R (Float radix2 (Z.sgn m) (53 + e))).
    2:{ unfold F2R. cbn [Fnum Fexp]. rewrite bpow_plus. ring. }
    apply generic_format_FLT. exists (Float radix2 (Z.sgn m) (53 + e)); cbn [Fnum Fexp]; [reflexivity|change (Z.pow radix2 53) with (2 ^ 53)%Z; lia|lia].
  - apply generic_format_FLT. exists (Float radix2 m e); cbn [Fnum Fexp]; [reflexivity|change (Z.pow radix2 53) with (2 ^ 53)%Z; lia|lia].
Qed.

Lemma bpow_lt_max e : (e < 1024)%Z -> bpow radix2 e < bpow radix2 1024.
Proof. intros. now apply bpow_lt. Qed.

(** A double at least 2^k in size is a multiple of 2^(k-52). *)
Lemma fmt_multiple y k : fmt y -> bpow radix2 k <= Rabs y -> exists j, y = IZR j * bpow radix2 (k - 52).
Proof.
  intros Hy Hk.
  assert (Hm : (k + 1 <= mag radix2 y)%Z).
  { apply mag_ge_bpow. replace (k + 1 - 1)%Z with k by lia. exact Hk. }
  rewrite Hy. unfold F2R. cbn [Fnum Fexp].
  assert (Hc : (k - 52 <= cexp radix2 (SpecFloat.fexp 53 1024) y)%Z).
  { unfold cexp. rewrite fexp_eq. unfold FLT_exp. lia. }
  set (c := cexp _ _ y) in *. set (z := Ztrunc _).
  exists (z * 2 ^ (c - (k - 52)))%Z.
  rewrite mult_IZR. change 2%Z with (radix_val radix2). rewrite IZR_Zpower by lia.
  rewrite Rmult_assoc, <- bpow_plus. do 2 f_equal. lia.
Qed.

(** Literals. *)
Lemma f64_lit_exact m e : (Z.abs m <= 2 ^ 53)%Z -> (-1074 <= e <= 900)%Z ->
  B2R (f64_lit m e) = IZR m * bpow radix2 e /\ is_finite (f64_lit m e) = true.
Proof.
  intros Hm He. unfold f64_lit.
  pose proof (binary_normalize_correct 53 1024 prec53 emax53 mode_NE m e false) as H.
  cbv zeta in H.
  assert (F : F2R (Float radix2 m e) = IZR m * bpow radix2 e) by reflexivity.
  rewrite F in H. rewrite round_generic in H; [|apply valid_rnd_round_mode|apply fmt_dyadic; lia].
  rewrite Rlt_bool_true in H.
  - destruct H as (H1 & H2 & _). auto.
  - rewrite Rabs_mult, (Rabs_pos_eq (bpow _ _)) by apply bpow_ge_0. rewrite <- abs_IZR.
    apply Rle_lt_trans with (bpow radix2 53 * bpow radix2 e).
    + apply Rmult_le_compat_r; [apply bpow_ge_0|]. change (bpow radix2 53) with (IZR (2 ^ 53)). now apply IZR_le.
    + rewrite <- bpow_plus. apply bpow_lt. lia.
Qed.

Lemma f64_of_int_exact z : (Z.abs z <= 2 ^ 53)%Z -> B2R (f64_of_int z) = IZR z /\ is_finite (f64_of_int z) = true.
Proof.
  intros H. destruct (f64_lit_exact z 0 H ltac:(lia)) as [E1 E2]. split; [|exact E2].
  unfold f64_of_int. rewrite E1. cbn. lra.
Qed.

(** ** Decoding *)
Definition dec_value (v : Z) : R := IZR v / 65536.

Lemma small_lt v k : (Z.abs v <= 2 ^ 53)%Z -> (k <= 0)%Z -> Rabs (IZR v * bpow radix2 k) < bpow radix2 1024.
Proof.
  intros Hv Hk. rewrite Rabs_mult, (Rabs_pos_eq (bpow _ _)) by apply bpow_ge_0. rewrite <- abs_IZR.
  apply Rle_lt_trans with (bpow radix2 53 * bpow radix2 k).
  - apply Rmult_le_compat_r; [apply bpow_ge_0|]. change (bpow radix2 53) with (IZR (2 ^ 53)). now apply IZR_le.
  - rewrite <- bpow_plus. apply bpow_lt. lia.
Qed.

Lemma bpow_m16 : bpow radix2 (-16) = / 65536.
Proof. cbn. f_equal. Qed.

Lemma dec_exact e v : (- 2 ^ 31 <= v < 2 ^ 31)%Z -> (ovf e = true -> v <> (- 2 ^ 31)%Z) ->
  exists x, s15f16_to_f64 e v = Some x /\ is_finite x = true /\ B2R x = dec_value v.
Proof.
  intros Hv Ho. unfold s15f16_to_f64, i32_abs.
  set (sgn := if (v <? 0)%Z then f64_lit (-1) 0 else f64_lit 1 0).
  assert (HS : B2R sgn = (if (v <? 0)%Z then -1 else 1) /\ is_finite sgn = true).
  { unfold sgn. destruct (v <? 0)%Z.
    - destruct (f64_lit_exact (-1) 0 ltac:(lia) ltac:(lia)) as [E1 E2]. rewrite E1. cbn. split; [lra|exact E2].
    - destruct (f64_lit_exact 1 0 ltac:(lia) ltac:(lia)) as [E1 E2]. rewrite E1. cbn. split; [lra|exact E2]. }
  assert (HA : exists a, (if (v =? - 2 ^ 31)%Z then (if ovf e then None else Some v) else Some (Z.abs v)) = Some a
     /\ exists w f, (0 <= w < 65536)%Z /\ (0 <= f < 65536)%Z /\ Z.abs v = (w * 65536 + f)%Z
     /\ ((Z.land (Z.shiftr a 16) 65535) mod 2 ^ 16)%Z = w /\ ((Z.land a 65535) mod 2 ^ 16)%Z = f).
  { assert (L : forall z, (Z.land z 65535 = z mod 65536)%Z) by (intros; apply (Z.land_ones z 16); lia).
    destruct (Z.eqb_spec v (- 2 ^ 31)) as [E|E].
    - destruct (ovf e); [exfalso; now apply Ho|]. exists v. split; [reflexivity|].
      subst v. exists 32768%Z, 0%Z. repeat split; try lia.
    - exists (Z.abs v). split; [reflexivity|].
      exists (Z.abs v / 65536)%Z, (Z.abs v mod 65536)%Z.
      assert (0 <= Z.abs v < 2 ^ 31)%Z by lia.
      rewrite !L, Z.shiftr_div_pow2 by lia. change (2 ^ 16)%Z with 65536%Z.
      rewrite !Z.mod_mod by lia.
      pose proof (Z.div_mod (Z.abs v) 65536). pose proof (Z.mod_pos_bound (Z.abs v) 65536).
      assert (0 <= Z.abs v / 65536 < 32768)%Z by (split; [apply Z.div_pos; lia | apply Z.div_lt_upper_bound; lia]).
      rewrite (Z.mod_small (Z.abs v / 65536)) by lia. repeat split; lia. }
  destruct HA as (a & -> & w & f & Hw & Hf & HV & -> & ->).
  eexists. split; [reflexivity|].
  destruct (f64_of_int_exact f ltac:(lia)) as [F1 F2].
  destruct (f64_of_int_exact w ltac:(lia)) as [W1 W2].
  destruct (f64_lit_exact 65536 0 ltac:(lia) ltac:(lia)) as [K1 K2].
  rewrite Rmult_1_r in K1.
  (* frac / 65536 *)
  assert (D : B2R (f64_div (f64_of_int f) (f64_lit 65536 0)) = IZR f * bpow radix2 (-16) /\
              is_finite (f64_div (f64_of_int f) (f64_lit 65536 0)) = true).
  { unfold f64_div.
    assert (K0 : B2R (f64_lit 65536 0) <> 0) by (rewrite K1; lra).
    pose proof (Bdiv_correct 53 1024 prec53 emax53 mode_NE (f64_of_int f) _ K0) as H.
    rewrite F1, K1 in H. replace (IZR f / 65536) with (IZR f * bpow radix2 (-16)) in H
      by (rewrite bpow_m16; reflexivity).
    rewrite round_generic in H; [|apply valid_rnd_round_mode|apply fmt_dyadic; lia].
    rewrite Rlt_bool_true in H by (apply small_lt; lia).
    destruct H as (H1 & H2 & _). rewrite H2, F2. auto. }
  destruct D as [D1 D2].
  (* whole + mid *)
  assert (A : B2R (f64_add (f64_of_int w) (f64_div (f64_of_int f) (f64_lit 65536 0))) = IZR (Z.abs v) * bpow radix2 (-16) /\
              is_finite (f64_add (f64_of_int w) (f64_div (f64_of_int f) (f64_lit 65536 0))) = true).
  { unfold f64_add.
    pose proof (Bplus_correct 53 1024 prec53 emax53 mode_NE _ _ W2 D2) as H.
    rewrite W1, D1 in H.
    replace (IZR w + IZR f * bpow radix2 (-16)) with (IZR (Z.abs v) * bpow radix2 (-16)) in H.
    2:{ rewrite HV, plus_IZR, mult_IZR, bpow_m16. lra. }
    rewrite round_generic in H; [|apply valid_rnd_round_mode|apply fmt_dyadic; lia].
    rewrite Rlt_bool_true in H by (apply small_lt; lia).
    destruct H as (H1 & H2 & _). auto. }
  destruct A as [A1 A2]. destruct HS as [S1 S2].
  unfold f64_mul.
  pose proof (Bmult_correct 53 1024 prec53 emax53 mode_NE sgn (f64_add (f64_of_int w) (f64_div (f64_of_int f) (f64_lit 65536 0)))) as H.
  rewrite S1, A1, S2, A2 in H.
  replace ((if (v <? 0)%Z then -1 else 1) * (IZR (Z.abs v) * bpow radix2 (-16))) with (IZR v * bpow radix2 (-16)) in H.
  2:{ rewrite abs_IZR. destruct (Z.ltb_spec v 0).
      - rewrite Rabs_left by (apply IZR_lt; lia). lra.
      - rewrite Rabs_pos_eq by (apply IZR_le; lia). lra. }
  rewrite round_generic in H; [|apply valid_rnd_round_mode|apply fmt_dyadic; lia].
  rewrite Rlt_bool_true in H by (apply small_lt; lia).
  destruct H as (H1 & H2 & _). split; [exact H2|]. rewrite H1, bpow_m16. reflexivity.
Qed.

Lemma dec_panics e v : (- 2 ^ 31 <= v < 2 ^ 31)%Z ->
  (s15f16_to_f64 e v = None <-> ovf e = true /\ v = (- 2 ^ 31)%Z).
Proof.
  intros Hv. split.
  - intros H. destruct (Z.eq_dec v (- 2 ^ 31)) as [E|E], (ovf e) eqn:O; auto; exfalso;
      destruct (dec_exact e v Hv) as (x & Hx & _); congruence.
  - intros [O ->]. unfold s15f16_to_f64, i32_abs. rewrite O. reflexivity.
Qed.

(** ** Encoding *)
Lemma floor_up t n : IZR n <= t -> (n <= Zfloor t)%Z.
Proof. intros. now apply Zfloor_lub. Qed.
Lemma floor_lt t n : t < IZR n -> (Zfloor t < n)%Z.
Proof. intros. apply lt_IZR. apply Rle_lt_trans with t; [apply Zfloor_lb|assumption]. Qed.

Lemma rne_mono x y : x <= y -> rne x <= rne y.
Proof. intros. apply round_le; [apply vfexp|apply valid_rnd_round_mode|assumption]. Qed.
Lemma rne_le x q : fmt q -> x <= q -> rne x <= q.
Proof. intros. apply round_le_generic; [apply vfexp|apply valid_rnd_round_mode|assumption|assumption]. Qed.
Lemma rne_ge x q : fmt q -> q <= x -> q <= rne x.
Proof. intros. apply round_ge_generic; [apply vfexp|apply valid_rnd_round_mode|assumption|assumption]. Qed.

Lemma fmt_int n : (Z.abs n <= 2 ^ 53)%Z -> fmt (IZR n).
Proof. intros. replace (IZR n) with (IZR n * bpow radix2 0) by (cbn; lra). apply fmt_dyadic; lia. Qed.

Lemma bpow_half : bpow radix2 (-1) = / 2.
Proof. reflexivity. Qed.

(** If y is a double of size at least 2^k below n + 1/2, and n + 1 is at most 2^(k+1) in size,
    then rounding y + 1/2 cannot reach n + 1. *)
Lemma no_carry y n k : fmt y -> (-1 <= k <= 40)%Z -> bpow radix2 k <= Rabs y -> y < IZR n + / 2 ->
  (Z.abs (n + 1) * 2 ^ (52 - k) + 1 <= 2 ^ 53)%Z \/ (0 < n + 1 /\ (n + 1) * 2 ^ (52 - k) - 1 <= 2 ^ 53)%Z ->
  rne (y + / 2) < IZR n + 1.
Proof.
  intros Hy Hk Hb Hlt Hsz.
  destruct (fmt_multiple y k Hy Hb) as [j Hj].
  set (g := bpow radix2 (k - 52)) in *.
  assert (G : 0 < g) by apply bpow_gt_0.
  assert (E : IZR (2 ^ (52 - k)) * g = 1).
  { unfold g. change 2%Z with (radix_val radix2). rewrite IZR_Zpower by lia. rewrite <- bpow_plus.
    replace (52 - k + (k - 52))%Z with 0%Z by lia. reflexivity. }
  assert (E2 : IZR (2 ^ (52 - k - 1)) * g = / 2).
  { unfold g. change 2%Z with (radix_val radix2) at 1. rewrite IZR_Zpower by lia. rewrite <- bpow_plus.
    replace (52 - k - 1 + (k - 52))%Z with (-1)%Z by lia. reflexivity. }
  assert (Hj2 : (j + 1 <= n * 2 ^ (52 - k) + 2 ^ (52 - k - 1))%Z).
  { apply Zlt_le_succ. apply lt_IZR. apply Rmult_lt_reg_r with g; [exact G|].
    rewrite plus_IZR, mult_IZR, Rmult_plus_distr_r, Rmult_assoc, E, E2, <- Hj. lra. }
  assert (Hq : y + / 2 <= IZR ((n + 1) * 2 ^ (52 - k) - 1) * g).
  { rewrite Hj, <- E2, <- Rmult_plus_distr_r, <- plus_IZR. apply Rmult_le_compat_r; [lra|]. apply IZR_le.
    assert (2 ^ (52 - k) = 2 * 2 ^ (52 - k - 1))%Z by (rewrite <- Z.pow_succ_r by lia; f_equal; lia). lia. }
  apply Rle_lt_trans with (IZR ((n + 1) * 2 ^ (52 - k) - 1) * g).
  - apply rne_le; [|exact Hq]. apply fmt_dyadic; [|lia].
    assert (0 < 2 ^ (52 - k))%Z by (apply Z.pow_pos_nonneg; lia).
    destruct Hsz as [Hsz|[H1 H2]]; [|rewrite Z.abs_eq; nia].
    replace (Z.abs (n + 1) * 2 ^ (52 - k))%Z with (Z.abs ((n + 1) * 2 ^ (52 - k))) in Hsz
      by (rewrite Z.abs_mul; f_equal; lia). lia.
  - rewrite minus_IZR, mult_IZR, plus_IZR. replace ((_ - 1) * g) with ((IZR n + 1) * (IZR (2 ^ (52 - k)) * g) - g) by ring.
    rewrite E. lra.
Qed.

Definition exc_y : R := / 2 - bpow radix2 (-54).

Lemma floor_rne y : fmt y -> y <> exc_y ->
  clamp_i32 (Zfloor (rne (y + / 2))) = clamp_i32 (Zfloor (y + / 2)).
Proof.
  intros Hy Hex. set (t := y + / 2).
  destruct (Rle_lt_dec (IZR (2 ^ 31)) t) as [Hbig|Hbig].
  { assert (IZR (2 ^ 31) <= rne t) by (apply rne_ge; [apply fmt_int; lia|assumption]).
    apply floor_up in H, Hbig. unfold clamp_i32, i32_max, i32_min. lia. }
  destruct (Rlt_le_dec t (IZR (- 2 ^ 31))) as [Hsm|Hsm].
  { assert (rne t <= IZR (- 2 ^ 31)) by (apply rne_le; [apply fmt_int; lia|lra]).
    assert (Zfloor (rne t) <= - 2 ^ 31)%Z.
    { rewrite <- (Zfloor_IZR (- 2 ^ 31)). now apply Zfloor_le. }
    apply floor_lt in Hsm. unfold clamp_i32, i32_max, i32_min. lia. }
  f_equal. set (n := Zfloor t).
  pose proof (Zfloor_lb t) as L. pose proof (Zfloor_ub t) as U. fold n in L, U.
  assert (Hn : (- 2 ^ 31 <= n < 2 ^ 31)%Z) by (split; [now apply floor_up|now apply floor_lt]).
  apply Zfloor_imp. rewrite plus_IZR. split; [apply rne_ge; [apply fmt_int; lia|exact L]|].
  assert (Hlt : y < IZR n + / 2) by (unfold t in U; lra).
  destruct (Z_le_gt_dec 1 n) as [N1|N1].
  - (* positive *)
    destruct (Rlt_le_dec y (IZR n)) as [C|C].
    + apply Rle_lt_trans with (IZR n + / 2); [|lra]. apply rne_le; [|unfold t; lra].
      replace (IZR n + / 2) with (IZR (2 * n + 1) * bpow radix2 (-1)); [apply fmt_dyadic; lia|].
      rewrite bpow_half, plus_IZR, mult_IZR. lra.
    + pose proof (Z.log2_spec n ltac:(lia)) as [P1 P2]. pose proof (Z.log2_nonneg n) as P3.
      assert (Z.log2 n <= 31)%Z by (apply Z.log2_le_pow2 in P1; [|lia]; apply (Z.log2_le_mono n (2 ^ 31)); lia).
      apply (no_carry y n (Z.log2 n)); auto; [lia| |right].
      * apply Rle_trans with (IZR n).
        { change 2%Z with (radix_val radix2) in P1. rewrite <- IZR_Zpower by lia. now apply IZR_le. }
        { rewrite Rabs_pos_eq; [lra|]. apply Rle_trans with (IZR n); [apply IZR_le; lia|exact C]. }
      * split; [lia|]. 
        assert (2 ^ Z.succ (Z.log2 n) * 2 ^ (52 - Z.log2 n) = 2 ^ 53)%Z by (rewrite <- Z.pow_add_r by lia; f_equal; lia).
        assert (0 < 2 ^ (52 - Z.log2 n))%Z by (apply Z.pow_pos_nonneg; lia). nia.
  - destruct (Z.eq_dec n 0) as [N0|N0].
    + rewrite N0 in *. rewrite Rplus_0_l.
      destruct (Rlt_le_dec y (/ 4)) as [C|C].
      * apply Rle_lt_trans with (3 / 4); [|lra]. apply rne_le; [|unfold t; lra].
        replace (3 / 4) with (IZR 3 * bpow radix2 (-2)) by (cbn; lra). apply fmt_dyadic; lia.
      * destruct (fmt_multiple y (-2) Hy) as [j Hj].
        { rewrite Rabs_pos_eq by lra. cbn. lra. }
        change (-2 - 52)%Z with (-54)%Z in Hj.
        set (g := bpow radix2 (-54)) in *. assert (G : 0 < g) by apply bpow_gt_0.
        assert (E2 : IZR (2 ^ 53) * g = / 2).
        { unfold g. change (IZR (2 ^ 53)) with (bpow radix2 53). rewrite <- bpow_plus. reflexivity. }
        assert (Hj1 : (j < 2 ^ 53)%Z).
        { apply lt_IZR. apply Rmult_lt_reg_r with g; [exact G|]. rewrite E2, <- Hj. lra. }
        assert (Hj2 : (j <> 2 ^ 53 - 1)%Z).
        { intros ->. apply Hex. rewrite Hj, minus_IZR. unfold exc_y. fold g. rewrite <- E2. ring. }
        apply Rle_lt_trans with (IZR (2 ^ 53 - 1) * bpow radix2 (-53)).
        { apply rne_le; [apply fmt_dyadic; lia|]. unfold t. rewrite Hj.
          replace (bpow radix2 (-53)) with (2 * g).
          2:{ unfold g. replace (-53)%Z with (1 + -54)%Z by lia. rewrite bpow_plus. reflexivity. }
          rewrite <- E2, <- Rmult_plus_distr_r, <- plus_IZR, <- Rmult_assoc, <- mult_IZR.
          apply Rmult_le_compat_r; [lra|]. apply IZR_le. lia. }
        { rewrite minus_IZR, Rmult_minus_distr_r. change (IZR (2 ^ 53)) with (bpow radix2 53).
          rewrite <- bpow_plus. assert (0 < bpow radix2 (-53)) by apply bpow_gt_0.
          replace (bpow radix2 (53 + -53)) with 1 by reflexivity. lra. }
    + destruct (Z.eq_dec n (-1)) as [Nm|Nm].
      * apply (no_carry y n (-1)); auto; [lia| |left; rewrite Nm; cbn; lia].
        rewrite bpow_half. rewrite Nm in Hlt. rewrite Rabs_left by lra. lra.
      * set (m := (- n - 1)%Z). assert (Hm : (1 <= m <= 2 ^ 31)%Z) by lia.
        assert (En : IZR n = - IZR m - 1) by (unfold m; rewrite minus_IZR, opp_IZR; lra).
        pose proof (Z.log2_spec m ltac:(lia)) as [P1 P2]. pose proof (Z.log2_nonneg m) as P3.
        assert (Z.log2 m <= 31)%Z by (apply (Z.log2_le_mono m (2 ^ 31)); lia).
        assert (Hm0 : 1 <= IZR m) by (apply IZR_le; lia).
        apply (no_carry y n (Z.log2 m)); auto; [lia| |left].
        { apply Rle_trans with (IZR m).
          - change 2%Z with (radix_val radix2) in P1. rewrite <- IZR_Zpower by lia. now apply IZR_le.
          - rewrite Rabs_left by lra. lra. }
        { replace (Z.abs (n + 1)) with m by lia.
          assert (2 ^ Z.succ (Z.log2 m) * 2 ^ (52 - Z.log2 m) = 2 ^ 53)%Z by (rewrite <- Z.pow_add_r by lia; f_equal; lia).
          assert (1 <= 2 ^ (52 - Z.log2 m))%Z by (change 1%Z with (2 ^ 0)%Z; apply Z.pow_le_mono_r; lia). nia. }
Qed.

Lemma half_exact : B2R (f64_lit 1 (-1)) = / 2 /\ is_finite (f64_lit 1 (-1)) = true /\ Bsign (f64_lit 1 (-1)) = false.
Proof.
  destruct (f64_lit_exact 1 (-1) ltac:(lia) ltac:(lia)) as [E1 E2]. rewrite E1. split; [cbn; lra|].
  split; [exact E2|]. vm_compute. reflexivity.
Qed.

Lemma inf_of_overflow (x : f64) s : B2SF x = binary_overflow 53 1024 mode_NE s -> x = B754_infinity s.
Proof. cbn. destruct x; cbn; intros H; try discriminate. now injection H as ->. Qed.

(** Floor and conversion of a finite double. *)
Lemma floor_as_i32 (z : f64) : is_finite z = true -> f64_as_i32 (f64_floor z) = clamp_i32 (Zfloor (B2R z)).
Proof.
  intros Hz. unfold f64_floor.
  pose proof (Bnearbyint_correct 53 1024 emax53 mode_DN z) as (H1 & H2 & _).
  assert (T : Btrunc (Bnearbyint mode_DN z) = Zfloor (B2R z)).
  { apply eq_IZR. rewrite Btrunc_correct by (try exact emax53). rewrite H1.
    unfold round at 1 2. unfold scaled_mantissa, cexp, FIX_exp, F2R. cbn [Fnum Fexp Z.opp bpow].
    rewrite !Rmult_1_r. cbn [round_mode]. now rewrite Ztrunc_IZR. }
  unfold f64_as_i32. destruct (Bnearbyint mode_DN z) eqn:E; cbn in H2; rewrite ?Hz in H2; try discriminate.
  - now rewrite T.
  - now rewrite T.
Qed.

Lemma enc_main (x : f64) : is_finite x = true -> 65536 * B2R x <> exc_y ->
  f64_to_s15f16 x = clamp_i32 (Zfloor (65536 * B2R x + / 2)).
Proof.
  intros Hx Hex. unfold f64_to_s15f16.
  destruct (f64_lit_exact 65536 0 ltac:(lia) ltac:(lia)) as [K1 K2]. rewrite Rmult_1_r in K1.
  destruct half_exact as (Hh1 & Hh2 & Hh3).
  pose proof (Bmult_correct 53 1024 prec53 emax53 mode_NE x (f64_lit 65536 0)) as H. fold (f64_mul x (f64_lit 65536 0)) in H.
  rewrite K1 in H.
  assert (Hf : fmt (B2R x * 65536)).
  { pose proof (generic_format_B2R 53 1024 x) as Fx. destruct (Req_dec (B2R x) 0) as [Z0|Z0].
    - rewrite Z0, Rmult_0_l. apply generic_format_0.
    - unfold generic_format in Fx. rewrite Fx at 1. unfold F2R. cbn [Fnum Fexp].
      replace 65536 with (bpow radix2 16) by reflexivity. rewrite Rmult_assoc, <- bpow_plus.
      set (c := cexp _ _ _). set (m := Ztrunc _) in *. 
      replace (IZR m * bpow radix2 (c + 16)) with (F2R (Float radix2 m (c + 16))) by reflexivity.
      apply generic_format_F2R. intros Hm. unfold cexp at 1. rewrite fexp_eq. unfold FLT_exp.
      assert (M : mag radix2 (F2R (Float radix2 m (c + 16))) = (mag radix2 (B2R x) + 16)%Z :> Z).
      { replace (F2R (Float radix2 m (c + 16))) with (B2R x * bpow radix2 16).
        - now apply mag_mult_bpow.
        - rewrite Fx at 1. unfold F2R. cbn [Fnum Fexp]. fold c m. rewrite Rmult_assoc, <- bpow_plus. reflexivity. }
      rewrite M. unfold c, cexp. rewrite fexp_eq. unfold FLT_exp. lia. }
  rewrite round_generic in H; [|apply valid_rnd_round_mode|exact Hf].
  replace (B2R x * 65536) with (65536 * B2R x) in * by ring.
  set (y := f64_mul x (f64_lit 65536 0)) in *.
  destruct (Rlt_bool_spec (Rabs (65536 * B2R x)) (bpow radix2 1024)) as [Hlt|Hge].
  - destruct H as (Y1 & Y2 & _). rewrite Hx, K2 in Y2. cbn in Y2.
    pose proof (Bplus_correct 53 1024 prec53 emax53 mode_NE y _ Y2 Hh2) as P.
    fold (f64_add y (f64_lit 1 (-1))) in P. rewrite Y1, Hh1 in P.
    set (z := f64_add y (f64_lit 1 (-1))) in *.
    destruct (Rlt_bool_spec (Rabs (rne (65536 * B2R x + / 2))) (bpow radix2 1024)) as [Zlt|Zge].
    + destruct P as (P1 & P2 & _). rewrite floor_as_i32 by exact P2. rewrite P1. now apply floor_rne.
    + destruct P as (P1 & P2). rewrite Hh3 in P2. rewrite P2 in P1. apply inf_of_overflow in P1.
      rewrite P1. cbn [f64_floor Bnearbyint f64_as_i32].
      assert (Y0 : 0 <= 65536 * B2R x).
      { rewrite <- Y1. clear - P2 Y2. destruct y; cbn in *; try lra; try discriminate. subst. apply F2R_ge_0. cbn. lia. }
      destruct (Rle_lt_dec (IZR (2 ^ 32)) (65536 * B2R x + / 2)) as [C|C].
      * apply floor_up in C. unfold clamp_i32, i32_max, i32_min. lia.
      * exfalso. assert (rne (65536 * B2R x + / 2) <= IZR (2 ^ 32)) by (apply rne_le; [apply fmt_int; lia|lra]).
        assert (0 <= rne (65536 * B2R x + / 2)) by (apply rne_ge; [apply generic_format_0|lra]).
        rewrite Rabs_pos_eq in Zge by assumption.
        assert (IZR (2 ^ 32) < bpow radix2 1024) by (change (IZR (2 ^ 32)) with (bpow radix2 32); now apply bpow_lt). lra.
  - apply inf_of_overflow in H.
    assert (Sx : xorb (Bsign x) (Bsign (f64_lit 65536 0)) = Bsign x).
    { replace (Bsign (f64_lit 65536 0)) with false by (vm_compute; reflexivity). apply xorb_false_r. }
    rewrite Sx in H. unfold y in *. rewrite H.
    assert (IZR (2 ^ 32) < bpow radix2 1024) as HB by (change (IZR (2 ^ 32)) with (bpow radix2 32); now apply bpow_lt).
    assert (Bs : if Bsign x then B2R x <= 0 else 0 <= B2R x).
    { clear - Hx. destruct x as [s|s| |s m e Hm]; cbn in *; try discriminate; [destruct s; lra|].
      destruct s; [apply F2R_le_0|apply F2R_ge_0]; cbn; lia. }
    destruct half_exact as (_ & Hfh & _).
    assert (A : forall s, f64_add (B754_infinity s) (f64_lit 1 (-1)) = B754_infinity s).
    { intros s. destruct (f64_lit 1 (-1)); try discriminate; reflexivity. }
    rewrite A. destruct (Bsign x); cbn [f64_floor Bnearbyint f64_as_i32].
    + rewrite Rabs_left1 in Hge by lra.
      assert (65536 * B2R x + / 2 < IZR (- 2 ^ 31)).
      { rewrite opp_IZR. assert (IZR (2 ^ 31) + 1 <= IZR (2 ^ 32)) by (rewrite <- plus_IZR; apply IZR_le; lia). lra. }
      apply floor_lt in H0. unfold clamp_i32, i32_max, i32_min in *. lia.
    + rewrite Rabs_pos_eq in Hge by lra.
      assert (IZR (2 ^ 32) <= 65536 * B2R x + / 2) by lra.
      apply floor_up in H0. unfold clamp_i32, i32_max, i32_min in *. lia.
Qed.

Lemma exc_value : 65536 * B2R exc = exc_y /\ is_finite exc = true.
Proof.
  destruct (f64_lit_exact (2 ^ 53 - 1) (-70) ltac:(lia) ltac:(lia)) as [E1 E2].
  split; [|exact E2]. unfold exc. rewrite E1. unfold exc_y.
  replace 65536 with (bpow radix2 16) by reflexivity.
  rewrite (Rmult_comm (IZR _)), <- Rmult_assoc, <- bpow_plus.
  change (16 + -70)%Z with (-54)%Z. rewrite minus_IZR. change (IZR (2 ^ 53)) with (bpow radix2 53).
  rewrite Rmult_minus_distr_l, <- bpow_plus, Rmult_1_r. reflexivity.
Qed.

Lemma exc_only (x : f64) : is_finite x = true -> 65536 * B2R x = exc_y -> x = exc.
Proof.
  intros Hx H. destruct exc_value as [E1 E2].
  assert (HE : B2R x = B2R exc) by lra.
  assert (Hp : 0 < exc_y).
  { unfold exc_y. assert (bpow radix2 (-54) < bpow radix2 (-1)) by (apply bpow_lt; lia). rewrite bpow_half in H0. lra. }
  apply B2R_inj; [| |exact HE].
  - destruct x; cbn in *; try discriminate; [lra|reflexivity].
  - destruct exc; cbn in *; try discriminate; [lra|reflexivity].
Qed.

Lemma exc_encodes : f64_to_s15f16 exc = 1%Z.
Proof. vm_compute. reflexivity. Qed.

Lemma exc_floor : Zfloor (65536 * B2R exc + / 2) = 0%Z.
Proof.
  destruct exc_value as [-> _]. apply Zfloor_imp. unfold exc_y. cbn [Z.add].
  assert (bpow radix2 (-54) < bpow radix2 (-1)) by (apply bpow_lt; lia). rewrite bpow_half in H.
  assert (0 < bpow radix2 (-54)) by apply bpow_gt_0. lra.
Qed.

Lemma enc_nan : f64_to_s15f16 B754_nan = 0%Z.
Proof. reflexivity. Qed.
Lemma enc_inf s : f64_to_s15f16 (B754_infinity s) = if s then (- 2 ^ 31)%Z else (2 ^ 31 - 1)%Z.
Proof. destruct s; vm_compute; reflexivity. Qed.
