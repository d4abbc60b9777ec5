(** The sRGB curve with parameters stored as s15Fixed16. *)
From Coq Require Import ZArith Reals Lia Lra Psatz.
From Flocq Require Import Core IEEE754.BinarySingleNaN.
From Verif Require Import M_Base M_F64 M_Curve M_CurveF64 S_F64 S_Srgb P_S15 P_S15IO P_F64 P_Curve3 P_CurveErr P_Ideal P_CurveErr2 P_CurveErr3 P_CurveErr4 P_Srgb P_Srgb2.
Open Scope R_scope.

Lemma enc_near x v n : within (/ 10000000000) x v -> IZR n - 49 / 100 <= 65536 * v <= IZR n + 49 / 100 -> (1 <= n < 2 ^ 31)%Z -> f64_to_s15f16 x = n.
Proof.
  intros W V N. apply near_range in W. destruct W as (F & W). assert (N1 : 1 <= IZR n) by (apply (IZR_le 1); lia).
  rewrite enc_saturates; [|exact F|].
  - rewrite (Zfloor_imp n) by (rewrite plus_IZR; lra). cbn zeta.
    destruct (Z.ltb_spec n (- 2 ^ 31)); [lia|]. destruct (Z.ltb_spec (2 ^ 31 - 1) n); [lia|reflexivity].
  - intros ->. destruct exc_facts as (H & _). rewrite H in W. pose proof (bpow_gt_0 radix2 (-54)). lra.
Qed.
Section Stored.
Context (pow : f64 -> f64 -> f64) (lg ex : f64 -> f64) (AP : accurate_pow (2 * ulp_half) pow) (MP : monotone_pow pow).
Context (g a b c d : f64) (SP : srgb_params (/ 10000000000) g a b c d).
Notation O := (f64_ops pow lg ex).
Lemma stored_words : List.map f64_to_s15f16 [g; a; b; c; d] = [157286; 62119; 3417; 5072; 2651]%Z.
Proof.
  destruct SP as (Hg & Ha & Hb & Hc & Hd). cbn [List.map].
  rewrite (enc_near _ _ 157286 Hg), (enc_near _ _ 62119 Ha), (enc_near _ _ 3417 Hb), (enc_near _ _ 5072 Hc), (enc_near _ _ 2651 Hd) by (lra || lia).
  reflexivity.
Qed.
Lemma dec_val e v : (0 <= v < 2 ^ 31)%Z -> exists x, s15f16_to_f64 e v = Some x /\ finite x /\ B2R x = IZR v / 65536.
Proof. intros V. apply dec_exact; lia. Qed.
Lemma stored_break g' a' b' c' d' : finite g' -> finite a' -> finite b' -> finite c' -> finite d' ->
  B2R g' = 157286 / 65536 -> B2R a' = 62119 / 65536 -> B2R b' = 3417 / 65536 -> B2R c' = 5072 / 65536 -> B2R d' = 2651 / 65536 ->
  lt64 (Bmult mode_NE d' c') (pow (Bplus mode_NE (Bmult mode_NE a' d') b') g').
Proof.
  intros G A B C D Vg Va Vb Vc Vd. pose proof u_tiny as U.
  assert (TL : B2R (f64_cst Ltol) < 2 / 10000) by (rewrite (proj1 cst_tol); lra). pose proof tol64_small as TS.
  assert (PB : 904812 / 10000000 <= B2R a' * B2R d' + B2R b' <= 91 / 1000) by (rewrite Va, Vb, Vd; lra).
  assert (LP : Rabs (ln (B2R a' * B2R d' + B2R b')) <= 600).
  { assert (ln (9 / 100) <= ln (B2R a' * B2R d' + B2R b')) by (apply ln_mono; lra). pose proof ln_009.
    assert (ln (B2R a' * B2R d' + B2R b') <= 0) by (rewrite <- ln_1; apply ln_mono; lra). rewrite Rabs_left1 by assumption. lra. }
  destruct (raise_err a' b' A ltac:(rewrite Va; lra) B ltac:(rewrite Vb; lra) d' D ltac:(rewrite Vd; lra) ltac:(lra) LP) as ((FE & PE) & EE).
  set (E := Bplus mode_NE (Bmult mode_NE a' d') b') in *. set (P := B2R a' * B2R d' + B2R b') in *.
  apply Rabs_le_inv in EE. assert (EB : 9048 / 100000 <= B2R E <= 1) by nra.
  assert (LE : - (5 / 2) <= ln (B2R E) <= 0).
  { split; [eapply Rle_trans; [apply ln_009|apply ln_mono; lra]|rewrite <- ln_1; apply ln_mono; lra]. }
  destruct (AP E g' (conj FE PE) G) as ((FY & PY) & EY).
  { rewrite Rabs_mult, Rabs_pos_eq by (rewrite Vg; lra). rewrite Rabs_left1 by lra. rewrite Vg. lra. }
  assert (L1 : ln (31313 / 10000000) <= 24 / 10 * ln (9048 / 100000)).
  { assert (H : ln ((31313 / 10000000) ^ 5) <= ln ((9048 / 100000) ^ 12)) by (apply ln_mono; [apply pow_lt; lra|lra]).
    rewrite !ln_pow in H by lra. cbn [INR] in H. lra. }
  assert (L2 : ln (31312 / 10000000) + / 100000 <= ln (31313 / 10000000)).
  { replace (31313 / 10000000) with (31312 / 10000000 * (31313 / 31312)) by lra. rewrite ln_mult by lra. apply Rplus_le_compat_l.
    apply ln_of_exp; [lra|]. eapply Rle_trans; [apply exp_upper; lra|]. lra. }
  assert (LY : ln (31312 / 10000000) < ln (B2R (pow E g'))).
  { apply Rabs_le_inv in EY. assert (ln (9048 / 100000) <= ln (B2R E)) by (apply ln_mono; lra).
    rewrite Vg in EY. lra. }
  assert (YB : 31312 / 10000000 < B2R (pow E g')).
  { apply Rnot_le_lt. intros H. apply ln_mono in H; [|exact PY]. lra. }
  destruct (op_fin _ _ (ov_mult d' c' D C)) as (FM & EM).
  { rewrite Vc, Vd, Rabs_pos_eq by lra. apply Rle_trans with (bpow radix2 10); [change (bpow radix2 10) with 1024; lra|apply bpow_le; lia]. }
  rewrite Vc, Vd, (Rabs_pos_eq (2651 / 65536 * (5072 / 65536))) in EM by lra. apply Rabs_le_inv in EM.
  assert (eta <= / 1000000000000000).
  { apply Rle_trans with (bpow radix2 (-60)); [apply bpow_le; lia|]. change (bpow radix2 (-60)) with (/ 1152921504606846976). apply Rinv_le_contravar; lra. }
  split; rewrite le64_fin by assumption; lra.
Qed.
Lemma stored_srgb e : exists g' a' b' c' d',
  List.map (fun x => s15f16_to_f64 e (f64_to_s15f16 x)) [g; a; b; c; d] = [Some g'; Some a'; Some b'; Some c'; Some d'] /\
  forall r, finite r -> 0 <= B2R r <= 1 ->
  exists y z, eval_parametric O 4 [g'; a'; b'; c'; d'] r = Some y /\ eval_parametric O (-4) [g'; a'; b'; c'; d'] y = Some z /\
    finite y /\ finite z /\ Rabs (B2R y - srgb (B2R r)) <= 5 / 100000 /\ Rabs (B2R z - B2R r) <= / IZR (2 ^ 47) * B2R r + bpow radix2 (-1060).
Proof.
  pose proof stored_words as W. cbn [List.map] in W.
  destruct (dec_val e 157286 ltac:(lia)) as (g' & Eg & Fg & Vg). destruct (dec_val e 62119 ltac:(lia)) as (a' & Ea & Fa & Va).
  destruct (dec_val e 3417 ltac:(lia)) as (b' & Eb & Fb & Vb). destruct (dec_val e 5072 ltac:(lia)) as (c' & Ec & Fc & Vc).
  destruct (dec_val e 2651 ltac:(lia)) as (d' & Ed & Fd & Vd).
  exists g', a', b', c', d'. split.
  { cbn [List.map]. assert (forall T (h : Z -> T) A B C D E, [f64_to_s15f16 g; f64_to_s15f16 a; f64_to_s15f16 b; f64_to_s15f16 c; f64_to_s15f16 d] = [A; B; C; D; E] ->
      [h (f64_to_s15f16 g); h (f64_to_s15f16 a); h (f64_to_s15f16 b); h (f64_to_s15f16 c); h (f64_to_s15f16 d)] = [h A; h B; h C; h D; h E]) as K by (intros; congruence).
    rewrite (K _ (s15f16_to_f64 e) _ _ _ _ _ W), Eg, Ea, Eb, Ec, Ed. reflexivity. }
  intros r R RR.
  assert (SP' : srgb_params (69 / 10000000) g' a' b' c' d').
  { repeat split; try assumption; apply Rabs_le; rewrite ?Vg, ?Va, ?Vb, ?Vc, ?Vd; lra. }
  destruct (wide_round pow lg ex AP MP g' a' b' c' d' r) as (y & z & E1 & E2 & FZ & ZE); [|now apply stored_break|exact R|exact RR|].
  { apply srgb_narrow with (2 := SP'). lra. }
  destruct (srgb_accuracy pow lg ex AP g' a' b' c' d' (69 / 10000000) ltac:(lra) SP' r R RR) as (y' & E1' & FY & YE).
  rewrite E1 in E1'. apply Some_inj in E1'. subst y'. exists y, z. repeat (split; [assumption|]). split; [lra|exact ZE].
Qed.
End Stored.
