(** Order of types 7, 8, 108 and their inverses at binary64 (C91). *)
From Coq Require Import ZArith List Reals Lia Lra Psatz.
From Flocq Require Import Core IEEE754.BinarySingleNaN.
From Verif Require Import M_Base M_F64 M_Curve M_CurveF64 S_F64 S_Order P_S15 P_F64 P_Curve3 P_Order.
Import ListNotations.
Open Scope R_scope.

Lemma not_ge t : lt64 zero t -> f64_geb zero t = false.
Proof. intros (_ & N). apply Bool.not_true_iff_false. now rewrite geb_iff. Qed.
Lemma lt_le_trans x y z : lt64 x y -> le64 y z -> lt64 x z.
Proof. intros L M. apply ltb_lt64 in L. apply ltb_lt64. now apply above with y. Qed.
Lemma ten_fin : finite (f64_cst L10). Proof. reflexivity. Qed.
Lemma one_ten : lt64 one (f64_cst L10). Proof. apply ltb_lt64. vm_compute. reflexivity. Qed.

Section Others.
Context (pow : f64 -> f64 -> f64) (lg ex : f64 -> f64).
Notation O := (f64_ops pow lg ex).

Lemma type7_mono g a b c d : monotone_pow pow -> monotone_log lg -> positive g -> positive a -> positive b -> positive c -> finite d ->
  increasing_on (fun r => le64 zero r) (eval_parametric O 7 [g; a; b; c; d]).
Proof.
  intros MP ML G A B C D r r' Z Z' L. ev. do 2 eexists. split; [reflexivity|]. split; [reflexivity|].
  destruct (MP g r r' G Z L) as (P & PM).
  set (e := Bplus mode_NE (Bmult mode_NE b (pow r g)) c). set (e' := Bplus mode_NE (Bmult mode_NE b (pow r' g)) c).
  assert (LE : le64 e e') by (apply plus_mono; [now apply mult_mono|apply C]).
  assert (PE : lt64 zero e) by (apply (pos_lt c _ C), plus_pos; [now apply mult_nonneg|exact C]).
  rewrite (not_ge e PE), (not_ge e' (lt_le_trans _ _ _ PE LE)). apply plus_mono; [|exact D]. apply mult_mono; [exact A|]. apply ML; [apply PE|exact LE].
Qed.
Lemma type7_not_mono : pow zero one = zero -> pow (f64_cst Lhalf) one = f64_cst Lhalf -> finite (lg (f64_cst Lhalf)) -> lt64 (lg (f64_cst Lhalf)) zero ->
  ~ increasing_on (fun r => le64 zero r) (eval_parametric O 7 [one; one; one; zero; zero]).
Proof.
  intros P0 P1 FL LN H.
  destruct (H zero (f64_cst Lhalf)) as (y & y' & E & E' & L); [apply zero_zero|apply geb_iff; vm_compute; reflexivity|apply geb_iff; vm_compute; reflexivity|].
  revert E E'. ev. rewrite P0, P1.
  assert (f64_geb zero (Bplus mode_NE (Bmult mode_NE one zero) zero) = true) as -> by (vm_compute; reflexivity).
  replace (Bplus mode_NE (Bmult mode_NE one (f64_cst Lhalf)) zero) with (f64_cst Lhalf) by (apply B2SF_inj; vm_compute; reflexivity).
  assert (f64_geb zero (f64_cst Lhalf) = false) as -> by (vm_compute; reflexivity). intros [= <-] [= <-].
  apply le64_ov in L as (_ & _ & L). apply ltb_lt64, ltb_iff in LN as (_ & _ & LN). rewrite (ov_fin (lg _)) in LN by exact FL. change (ov zero) with 0 in L, LN.
  set (l := lg (f64_cst Lhalf)) in *. destruct cst1 as (V1 & F1). destruct (ov_mult one l one_fin FL) as (E1 & N1). change one with (f64_cst L1) in *. rewrite V1, Rmult_1_l, cap_rne_fin in E1.
  pose proof (fin_bound l). assert (FM := fin_of_ov _ N1 ltac:(lra)).
  destruct (ov_plus _ zero FM eq_refl) as (E2 & _). rewrite ov_fin in E1 by exact FM. rewrite E1 in E2. change (B2R zero) with 0 in E2. rewrite Rplus_0_r, cap_rne_fin in E2. change (0 <= ov (Bplus mode_NE (Bmult mode_NE (f64_cst L1) l) zero)) in L. rewrite E2 in L. lra.
Qed.
Lemma type_m7_mono g a b c d : monotone_pow pow -> monotone_exponent pow -> finite g -> le64 tol64 g -> finite a -> le64 tol64 a -> finite b -> le64 tol64 b ->
  finite c -> le64 c zero -> finite d -> increasing (eval_parametric O (-7) [g; a; b; c; d]).
Proof.
  intros MP ME G G' A A' B B' C C' D r r' L. ev. do 2 eexists. split; [reflexivity|]. split; [reflexivity|].
  rewrite (not_lt g _ G'), (not_lt a _ A'), (not_lt b _ B'). cbn [orb].
  destruct (ME (f64_cst L10) (Bdiv mode_NE (Bminus mode_NE r d) a) (Bdiv mode_NE (Bminus mode_NE r' d) a) ten_fin one_ten) as (P & PM).
  { apply div_mono; [now apply tol_pos|]. now apply minus_mono. }
  apply MP; [now apply recip_tol| |].
  - apply div_nonneg; [now apply tol_pos|]. now apply minus_nonneg.
  - apply div_mono; [now apply tol_pos|]. now apply minus_mono.
Qed.
Lemma type8_mono a b c d e : monotone_exponent pow -> positive a -> finite b -> lt64 one b -> positive c -> finite d -> finite e ->
  increasing (eval_parametric O 8 [a; b; c; d; e]).
Proof.
  intros ME A B B' C D E r r' L. ev. do 2 eexists. split; [reflexivity|]. split; [reflexivity|].
  apply plus_mono; [|exact E]. apply mult_mono; [exact A|]. apply ME; [exact B|exact B'|]. apply plus_mono; [|exact D]. now apply mult_mono.
Qed.
Lemma type_m8_mono a b c d e : monotone_log lg -> positive (lg b) -> finite a -> le64 tol64 a -> finite c -> le64 tol64 c -> finite d -> finite e ->
  increasing_on (fun r => le64 e r) (eval_parametric O (-8) [a; b; c; d; e]).
Proof.
  intros ML B A A' C C' D E r r' R R' L. ev. do 2 eexists. split; [reflexivity|]. split; [reflexivity|].
  rewrite (not_lt _ _ (minus_pos r e E R)), (not_lt _ _ (minus_pos r' e E R')), (abs_tol a A A'), (abs_tol c C C'). cbn [orb].
  apply div_mono; [now apply tol_pos|]. apply minus_mono; [|exact D]. apply div_mono; [exact B|]. apply ML.
  - apply div_nonneg; [now apply tol_pos|]. now apply minus_pos.
  - apply div_mono; [now apply tol_pos|]. now apply minus_mono.
Qed.
Lemma type_m8_not_mono a b c d e : lg zero = B754_infinity true -> positive (lg b) -> finite a -> le64 tol64 a -> finite c -> le64 tol64 c -> finite d -> finite e ->
  ~ increasing (eval_parametric O (-8) [a; b; c; d; e]).
Proof.
  intros LZ B A A' C C' D E H. destruct (H _ _ (inf_le e (number_fin _ E))) as (y & y' & Y & Y' & L). revert Y Y'. ev.
  assert (Bminus mode_NE (B754_infinity true) e = B754_infinity true) as -> by (destruct e as [|[|]| |]; try discriminate E; reflexivity).
  rewrite minus_self by exact E. assert (f64_ltb (B754_infinity true) zero = true) as -> by reflexivity.
  assert (f64_ltb zero zero = false) as -> by reflexivity. rewrite (abs_tol a A A'), (abs_tol c C C'). cbn [orb].
  assert (Bdiv mode_NE zero a = zero) as ->.
  { destruct (tol_pos a A A') as ((F & P) & _). destruct a as [s|s| |s m z M]; try discriminate; [cbn in P; lra|]. destruct s; [|reflexivity].
    exfalso. assert (F2R (Float radix2 (Zneg m) z) < 0) by (apply F2R_lt_0; cbn; lia). cbn in *. lra. }
  rewrite LZ, inf_div by exact B.
  assert (Bminus mode_NE (B754_infinity true) d = B754_infinity true) as -> by (destruct d as [|[|]| |]; try discriminate D; reflexivity).
  rewrite inf_div by now apply tol_pos. intros [= <-] [= <-]. exact L.
Qed.
Lemma pow_unit g x : monotone_pow pow -> one_pow pow -> positive g -> unit_interval x -> unit_interval (pow x g).
Proof. intros MP OP G (A & B). destruct (MP g x one G A B) as (P & Q). rewrite OP in Q. now split. Qed.
Lemma minus_unit x : unit_interval x -> unit_interval (Bminus mode_NE one x).
Proof. intros (A & B). split; [now apply one_minus|now apply one_minus_le]. Qed.
Lemma type108_mono g : monotone_pow pow -> one_pow pow -> finite g -> le64 tol64 g ->
  increasing_on unit_interval (eval_parametric O 108 [g]).
Proof.
  intros MP OP G G' r r' R R' L. ev. do 2 eexists. split; [reflexivity|]. split; [reflexivity|]. rewrite (abs_tol g G G').
  pose proof (recip_tol g G G') as P. set (h := Bdiv mode_NE (f64_cst L1) g) in *. change (f64_cst L1) with one.
  apply MP; [exact P|apply minus_unit, pow_unit, minus_unit; assumption|].
  apply minus_anti; [reflexivity|]. apply MP; [exact P|apply minus_unit; assumption|]. apply minus_anti; [reflexivity|exact L].
Qed.
Lemma type_m108_mono g : monotone_pow pow -> one_pow pow -> positive g ->
  increasing_on unit_interval (eval_parametric O (-108) [g]).
Proof.
  intros MP OP G r r' R R' L. ev. do 2 eexists. split; [reflexivity|]. split; [reflexivity|]. change (f64_cst L1) with one.
  apply minus_anti; [reflexivity|]. apply MP; [exact G|apply minus_unit, pow_unit; assumption|].
  apply minus_anti; [reflexivity|]. apply MP; [exact G|apply R|exact L].
Qed.
(** On the unit interval both stay there. *)
Lemma type108_unit g r y : monotone_pow pow -> one_pow pow -> finite g -> le64 tol64 g -> unit_interval r ->
  eval_parametric O 108 [g] r = Some y -> unit_interval y.
Proof.
  intros MP OP G G' R. ev. rewrite (abs_tol g G G'). intros [= <-]. pose proof (recip_tol g G G') as P. change (f64_cst L1) with one in *.
  apply pow_unit, minus_unit, pow_unit, minus_unit; assumption.
Qed.
Lemma type_m108_unit g r y : monotone_pow pow -> one_pow pow -> positive g -> unit_interval r ->
  eval_parametric O (-108) [g] r = Some y -> unit_interval y.
Proof.
  intros MP OP G R. ev. intros [= <-]. change (f64_cst L1) with one in *. apply minus_unit, pow_unit, minus_unit, pow_unit; assumption.
Qed.
End Others.
