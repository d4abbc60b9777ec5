(** Binary64 operations are the exact ones, rounded. *)
From Coq Require Import ZArith Reals Lia Lra Psatz.
From Flocq Require Import Core Plus_error IEEE754.BinarySingleNaN.
From Verif Require Import M_Base M_F64 M_Curve M_CurveF64 M_CurveReal S_F64 S_Exact P_S15 P_F64 P_Curve3 P_CurveErr P_Ideal.
Open Scope R_scope.

Lemma nearest_rne v : nearest v = rne v. Proof. reflexivity. Qed.
Lemma rne_sign v : top <= Rabs (rne v) -> Rlt_bool (rne v) 0 = Rlt_bool v 0.
Proof.
  intros H. pose proof top_pos. destruct (Rlt_bool_spec v 0) as [L|L].
  - apply Rlt_bool_true. assert (rne v <= 0) by (apply rne_le; [apply fmt0|lra]). rewrite Rabs_left1 in H by lra. lra.
  - apply Rlt_bool_false. apply rne_ge; [apply fmt0|exact L].
Qed.
(** From the ordered value of a result to its exact one. *)
Lemma exact_of_ov (z : f64) v : ov z = cap (rne v) /\ is_nan z = false -> exact z = rounded (Fin v).
Proof.
  intros (O & N). cbn [rounded]. rewrite nearest_rne. unfold cap in O. pose proof (fin_bound z) as B. pose proof top_pos as T.
  destruct (Rlt_bool_spec (Rabs (rne v)) top) as [L|L].
  - apply Rabs_def2 in L. destruct z as [s|s| |s m e H]; try discriminate N; cbn [ov exact] in *; try (now f_equal). destruct s; lra.
  - rewrite <- (rne_sign v L). destruct (Rlt_bool_spec (rne v) 0) as [S|S];
      (destruct z as [s|s| |s m e H]; try discriminate N; cbn [ov exact] in *; [lra|destruct s; (reflexivity || lra)|lra]).
Qed.
Lemma exact_fin x : is_finite x = true -> exact x = Fin (B2R x).
Proof. now destruct x as [s|s| |s m e H]. Qed.
Lemma exact_case x : (is_finite x = true /\ exact x = Fin (B2R x)) \/ x = B754_nan \/ x = B754_infinity false \/ x = B754_infinity true.
Proof. destruct x as [s|[|]| |s m e H]; intuition. Qed.
Lemma exact_neg x : exact (Bopp x) = ext_neg (exact x).
Proof.
  destruct (exact_case x) as [(F & E)|[->|[->| ->]]]; try reflexivity. rewrite E. cbn [ext_neg]. rewrite exact_fin by now rewrite is_finite_Bopp. now rewrite B2R_Bopp.
Qed.
Lemma exact_abs x : exact (Babs x) = ext_abs (exact x).
Proof.
  destruct (exact_case x) as [(F & E)|[->|[->| ->]]]; try reflexivity. rewrite E. cbn [ext_abs]. rewrite exact_fin by now rewrite is_finite_Babs. now rewrite B2R_Babs.
Qed.
Lemma exact_add x y : exact (Bplus mode_NE x y) = rounded (ext_add (exact x) (exact y)).
Proof.
  destruct (exact_case x) as [(F & E)|[->|[->| ->]]], (exact_case y) as [(F' & E')|[->|[->| ->]]]; rewrite ?E, ?E'; cbn [ext_add];
    try (apply exact_of_ov, ov_plus; assumption); try reflexivity; destruct x as [s|s| |s m e H] || destruct y as [s|s| |s m e H]; try discriminate; try reflexivity;
    destruct y as [s'|s'| |s' m' e' H']; try discriminate; reflexivity.
Qed.
Lemma exact_sub x y : exact (Bminus mode_NE x y) = rounded (ext_sub (exact x) (exact y)).
Proof.
  unfold ext_sub. destruct (exact_case x) as [(F & E)|[->|[->| ->]]], (exact_case y) as [(F' & E')|[->|[->| ->]]]; rewrite ?E, ?E'; cbn [ext_add ext_neg];
    try (apply exact_of_ov, ov_minus; assumption); try reflexivity; destruct x as [s|s| |s m e H] || destruct y as [s|s| |s m e H]; try discriminate; try reflexivity;
    destruct y as [s'|s'| |s' m' e' H']; try discriminate; reflexivity.
Qed.
(** The sign of a finite number. *)
Lemma sign_R s m e H : let v := B2R (B754_finite s m e H : f64) in if s then v < 0 else 0 < v.
Proof. cbn zeta. destruct s; [now apply F2R_lt_0|now apply F2R_gt_0]. Qed.
Lemma Reqb_f x y : x <> y -> Reqb x y = false. Proof. intros H. unfold Reqb. now destruct (Req_EM_T x y). Qed.
Lemma Reqb_t x : Reqb x x = true. Proof. unfold Reqb. now destruct (Req_EM_T x x). Qed.
Lemma inf_of_neg v : v < 0 -> inf_of v = NInf. Proof. intros H. unfold inf_of, Rltb. destruct (Rlt_dec v 0); [reflexivity|lra]. Qed.
Lemma inf_of_pos v : 0 <= v -> inf_of v = PInf. Proof. intros H. unfold inf_of, Rltb. destruct (Rlt_dec v 0); [lra|reflexivity]. Qed.
Lemma exact_mul_inf x s : exact (Bmult mode_NE x (B754_infinity s)) = ext_mul (exact x) (exact (B754_infinity s)).
Proof.
  destruct x as [s'|s'| |s' m e H]; cbn [Bmult exact].
  - cbn [ext_mul B2R ext_sgn]. now destruct s; cbn [ext_mul ext_sgn]; rewrite Reqb_t.
  - destruct s, s'; cbn [xorb ext_mul ext_sgn]; rewrite !Reqb_f by lra; (rewrite inf_of_neg by lra) || (rewrite inf_of_pos by lra); reflexivity.
  - now destruct s.
  - pose proof (sign_R s' m e H) as S. cbn zeta in S. set (v := B2R (B754_finite s' m e H)) in *. clearbody v. 
    destruct s, s'; cbn [xorb ext_mul ext_sgn]; rewrite !Reqb_f by lra; (rewrite inf_of_neg by lra) || (rewrite inf_of_pos by lra); reflexivity.
Qed.
Lemma rounded_inf_of v : rounded (inf_of v) = inf_of v. Proof. unfold inf_of. now destruct (Rltb v 0). Qed.
Lemma ext_mul_comm x y : ext_mul x y = ext_mul y x.
Proof.
  destruct x as [a| | |], y as [b| | |]; cbn [ext_mul ext_sgn]; try reflexivity; try (now rewrite Rmult_comm);
    try (rewrite (Rmult_comm _ a) || rewrite (Rmult_comm _ b)); try reflexivity;
    unfold Reqb; repeat destruct (Req_EM_T _ _); try lra; try reflexivity; f_equal; ring.
Qed.
Lemma Bmult_comm_inf s x : Bmult mode_NE (B754_infinity s) x = Bmult mode_NE x (B754_infinity s : f64).
Proof. destruct x; cbn [Bmult]; try reflexivity; now rewrite Bool.xorb_comm. Qed.
Lemma rounded_mul_inf x s : rounded (ext_mul x (exact (B754_infinity s))) = ext_mul x (exact (B754_infinity s)).
Proof. destruct x, s; cbn [exact ext_mul]; try reflexivity; repeat destruct (Reqb _ _); try reflexivity; apply rounded_inf_of. Qed.
Lemma exact_mul x y : exact (Bmult mode_NE x y) = rounded (ext_mul (exact x) (exact y)).
Proof.
  destruct (exact_case y) as [(F' & E')|[->|[->| ->]]].
  - destruct (exact_case x) as [(F & E)|[->|[->| ->]]].
    + rewrite E, E'. cbn [ext_mul]. now apply exact_of_ov, ov_mult.
    + now destruct y.
    + rewrite Bmult_comm_inf, exact_mul_inf, (ext_mul_comm (exact (B754_infinity _))). symmetry. apply rounded_mul_inf.
    + rewrite Bmult_comm_inf, exact_mul_inf, (ext_mul_comm (exact (B754_infinity _))). symmetry. apply rounded_mul_inf.
  - destruct x as [s|s| |s m e H]; try destruct s; reflexivity.
  - rewrite exact_mul_inf. symmetry. apply rounded_mul_inf.
  - rewrite exact_mul_inf. symmetry. apply rounded_mul_inf.
Qed.
Lemma rounded_0 : rounded (Fin 0) = Fin 0.
Proof.
  cbn [rounded]. rewrite nearest_rne, round_0 by apply valid_rnd_round_mode. rewrite Rlt_bool_true; [reflexivity|]. rewrite Rabs_R0. apply top_pos.
Qed.
Lemma exact_div x y : y <> neg_zero -> exact (Bdiv mode_NE x y) = rounded (ext_div (exact x) (exact y)).
Proof.
  intros NZ. destruct y as [[|]|s'| |s' m' e' H']; [now destruct NZ|..].
  - (* +0 *) destruct x as [s|s| |s m e H]; cbn [Bdiv exact ext_div]; change (B2R (B754_zero false : f64)) with 0; rewrite ?Reqb_t.
    + cbn [B2R]. rewrite ?Reqb_t. reflexivity.
    + destruct s; cbn [ext_div xorb]; unfold Rltb; (destruct (Rlt_dec 0 0); [lra|]); reflexivity.
    + reflexivity.
    + pose proof (sign_R s m e H) as S. cbn zeta in S. set (v := B2R (B754_finite s m e H)) in *. clearbody v.
      destruct s; rewrite Reqb_f by lra; [now rewrite inf_of_neg by lra|now rewrite inf_of_pos by lra].
  - destruct x as [s|s| |s m e H]; cbn [Bdiv exact]; destruct s'; cbn [ext_div]; try (destruct s); try reflexivity; cbn [B2R]; now rewrite rounded_0.
  - destruct x as [s|[|]| |s m e H]; reflexivity.
  - destruct (exact_case x) as [(F & E)|[->|[->| ->]]].
    + rewrite E. cbn [exact ext_div]. pose proof (sign_R s' m' e' H') as S. cbn zeta in S.
      rewrite Reqb_f by (destruct s'; lra). apply exact_of_ov, ov_div; [exact F|reflexivity|destruct s'; lra].
    + reflexivity.
    + pose proof (sign_R s' m' e' H') as S. cbn zeta in S. cbn [Bdiv exact ext_div]. unfold Rltb.
      destruct (Rlt_dec _ 0) as [L|L], s'; try lra; reflexivity.
    + pose proof (sign_R s' m' e' H') as S. cbn zeta in S. cbn [Bdiv exact ext_div]. unfold Rltb.
      destruct (Rlt_dec _ 0) as [L|L], s'; try lra; reflexivity.
Qed.
Lemma exact_div_neg_zero x : exact (Bdiv mode_NE x neg_zero) = ext_neg (ext_div (exact x) (Fin 0)).
Proof.
  destruct x as [s|s| |s m e H]; cbn [Bdiv neg_zero exact ext_div]; rewrite ?Reqb_t.
  - cbn [B2R]. rewrite ?Reqb_t. reflexivity.
  - destruct s; cbn [ext_div xorb]; unfold Rltb; (destruct (Rlt_dec 0 0); [lra|]); reflexivity.
  - reflexivity.
  - pose proof (sign_R s m e H) as S. cbn zeta in S. set (v := B2R (B754_finite s m e H)) in *. clearbody v.
    destruct s; rewrite Reqb_f by lra; [now rewrite inf_of_neg by lra|now rewrite inf_of_pos by lra].
Qed.
Lemma ov_exact x : is_nan x = false -> ov x = match exact x with Fin v => v | PInf => top | NInf => - top | NaN => 0 end.
Proof. now destruct x as [s|[|]| |s m e H]. Qed.
Lemma exact_ltb x y : f64_ltb x y = ext_lt (exact x) (exact y).
Proof.
  apply Bool.eq_iff_eq_true. rewrite ltb_iff. pose proof (fin_bound x). pose proof (fin_bound y). pose proof top_pos.
  destruct (exact_case x) as [(F & E)|[->|[->| ->]]], (exact_case y) as [(F' & E')|[->|[->| ->]]]; rewrite ?E, ?E';
    rewrite ?(ov_fin x), ?(ov_fin y), ?(fin_not_nan x), ?(fin_not_nan y) by assumption; cbn [ext_lt exact ov is_nan]; unfold Rltb; try destruct (Rlt_dec _ _);
    intuition (try discriminate; try lra).
Qed.
Lemma exact_geb x y : f64_geb x y = ext_ge (exact x) (exact y).
Proof.
  apply Bool.eq_iff_eq_true. rewrite geb_iff, le64_ov. pose proof (fin_bound x). pose proof (fin_bound y). pose proof top_pos.
  destruct (exact_case x) as [(F & E)|[->|[->| ->]]], (exact_case y) as [(F' & E')|[->|[->| ->]]]; rewrite ?E, ?E';
    rewrite ?(ov_fin x), ?(ov_fin y), ?(fin_not_nan x), ?(fin_not_nan y) by assumption; cbn [ext_ge ext_lt exact ov is_nan negb]; unfold Rltb; try destruct (Rlt_dec _ _);
    cbn [negb]; intuition (try discriminate; try lra).
Qed.
Lemma exact_max x y : exact (f64_max x y) = ext_max (exact x) (exact y).
Proof.
  assert (G : is_nan x = false -> is_nan y = false -> f64_max x y = (if f64_ltb x y then y else x) /\
    ext_max (exact x) (exact y) = (if ext_lt (exact x) (exact y) then exact y else exact x)).
  { intros A B. destruct x as [s|[|]| |s m e H], y as [s'|[|]| |s' m' e' H']; try discriminate; split; reflexivity. }
  destruct (is_nan x) eqn:A; [destruct x; try discriminate; reflexivity|].
  destruct (is_nan y) eqn:B; [destruct y; try discriminate; destruct x as [|[|]| |]; try discriminate; reflexivity|].
  destruct (G eq_refl eq_refl) as (-> & ->). rewrite exact_ltb. now destruct (ext_lt _ _).
Qed.
Lemma exact_lit_of m e : exact (f64_lit m e) = rounded (Fin (F2R (Float radix2 m e))).
Proof.
  apply exact_of_ov. unfold f64_lit. pose proof (binary_normalize_correct 53 1024 prec53 emax53 mode_NE m e false) as H. cbv zeta in H. unfold cap.
  destruct (Rlt_bool_spec (Rabs (rne (F2R (Float radix2 m e)))) top) as [L|L].
  - destruct H as (B & F & _). split; [|now apply fin_not_nan]. rewrite ov_fin by exact F. exact B.
  - apply inf_of_overflow in H. rewrite H. split; [|reflexivity]. cbn [ov]. rewrite <- (rne_sign _ L).  destruct (Rlt_bool (rne _) 0); reflexivity.
Qed.
