(** Order properties of the fixed-point conversions (C78). *)
From Coq Require Import ZArith Reals Lia Lra.
From Flocq Require Import Core IEEE754.BinarySingleNaN.
From Verif Require Import M_Base M_F64 M_Curve M_CurveF64 S_F64 P_S15 P_S15IO P_F64.
Open Scope R_scope.

Lemma c65536 : positive (f64_lit 65536 0).
Proof. destruct (f64_lit_exact 65536 0 ltac:(lia) ltac:(lia)) as (E & F). split; [exact F|]. rewrite E. cbn. lra. Qed.
Lemma as_i32_mono z z' : le64 z z' -> (f64_as_i32 (f64_floor z) <= f64_as_i32 (f64_floor z'))%Z.
Proof.
  intros L. destruct (le64_number _ _ L) as (N & N'). apply number_nan in N, N'.
  assert (R : forall x, (i32_min <= clamp_i32 x <= i32_max)%Z) by (intros; unfold clamp_i32, i32_min, i32_max; lia).
  destruct (is_finite z) eqn:F, (is_finite z') eqn:F'.
  - rewrite !floor_as_i32 by assumption. apply le64_fin in L; [|assumption|assumption]. apply Zfloor_le in L. unfold clamp_i32. lia.
  - destruct (fin_cases z' N' F') as [-> | ->]; [|rewrite (floor_as_i32 z) by exact F; apply R].
    exfalso. now destruct z as [|[|]| |].
  - destruct (fin_cases z N F) as [-> | ->]; [rewrite (floor_as_i32 z') by exact F'; apply R|].
    exfalso. now destruct z' as [|[|]| |].
  - destruct (fin_cases z N F) as [-> | ->], (fin_cases z' N' F') as [-> | ->]; cbn; unfold i32_min, i32_max; try lia. now cbn in L.
Qed.
Lemma enc_mono x x' : le64 x x' -> (f64_to_s15f16 x <= f64_to_s15f16 x')%Z.
Proof.
  intros L. apply as_i32_mono. apply plus_mono; [|apply half_exact]. now apply mult_mono; [apply c65536|].
Qed.
Lemma enc_range x : (- 2 ^ 31 <= f64_to_s15f16 x < 2 ^ 31)%Z.
Proof.
  unfold f64_to_s15f16. generalize (f64_floor (f64_add (f64_mul x (f64_lit 65536 0)) (f64_lit 1 (-1)))). intros z.
  unfold f64_as_i32, clamp_i32, i32_min, i32_max. destruct z as [|[|]| |]; lia.
Qed.
Lemma dec_mono e v v' x x' : (- 2 ^ 31 <= v < 2 ^ 31)%Z -> (- 2 ^ 31 <= v' < 2 ^ 31)%Z ->
  s15f16_to_f64 e v = Some x -> s15f16_to_f64 e v' = Some x' -> (le64 x x' <-> (v <= v')%Z).
Proof.
  intros V V' D D'.
  assert (P : forall u, (- 2 ^ 31 <= u < 2 ^ 31)%Z -> forall y, s15f16_to_f64 e u = Some y -> ovf e = true -> u <> (- 2 ^ 31)%Z).
  { intros u U y H O E. assert (s15f16_to_f64 e u = None) by (apply dec_panics; auto). congruence. }
  destruct (dec_exact e v V (P v V x D)) as (y & E & F & R). destruct (dec_exact e v' V' (P v' V' x' D')) as (y' & E' & F' & R').
  rewrite D in E. injection E as <-. rewrite D' in E'. injection E' as <-.
  rewrite le64_fin by assumption. rewrite R, R'. split; intros H.
  - apply le_IZR. unfold dec_value in H. lra.
  - apply IZR_le in H. unfold dec_value. lra.
Qed.
(** Encoding is a retraction: encode, decode, encode is encode. *)
Lemma enc_dec_enc e x y : s15f16_to_f64 e (f64_to_s15f16 x) = Some y -> f64_to_s15f16 y = f64_to_s15f16 x.
Proof.
  intros D. pose proof (enc_range x) as V. set (v := f64_to_s15f16 x) in *.
  assert (NP : ovf e = true -> v <> (- 2 ^ 31)%Z).
  { intros O E. assert (s15f16_to_f64 e v = None) by (apply dec_panics; auto). congruence. }
  destruct (word_round_trip e v V NP) as (y' & E & W). rewrite D in E. injection E as <-. exact W.
Qed.
