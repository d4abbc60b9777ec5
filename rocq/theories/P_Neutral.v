(** Curves with neutral parameters. *)
From Coq Require Import ZArith List Reals Lia Lra.
From Flocq Require Import Core IEEE754.BinarySingleNaN.
From Verif Require Import M_Base M_F64 M_Curve M_CurveF64 M_CurveReal S_F64 S_Exact S_Signed S_Neutral P_S15 P_F64 P_Curve3 P_CurveErr P_Ideal P_Exact P_Exact2 P_Exact3 P_Pow P_Signed P_Signed2.
Import ListNotations.
Open Scope R_scope.

Local Notation one := (f64_lit 1 0).
Local Notation nil0 := (f64_lit 0 0).
Lemma rounded_exact (x : f64) : rounded (exact x) = exact x.
Proof.
  destruct (exact_case x) as [(F & E)|[->|[->| ->]]]; try reflexivity. rewrite E. cbn [rounded].
  assert (V : nearest (B2R x) = B2R x) by (rewrite nearest_rne; apply round_generic; [apply valid_rnd_round_mode|apply generic_format_B2R]).
  rewrite V, Rlt_bool_true; [reflexivity|]. pose proof (fin_bound x). destruct x as [s|s| |s m e B]; try discriminate F; [cbn [B2R]; rewrite Rabs_R0; apply top_pos|].
  apply abs_B2R_lt_emax.
Qed.
Lemma e_one : exact one = Fin 1. Proof. exact exact_one. Qed.
Lemma e_zero : exact nil0 = Fin 0. Proof. reflexivity. Qed.
Lemma mul_one x : exact (Bmult mode_NE one x) = exact x.
Proof.
  rewrite exact_mul, e_one. rewrite <- (rounded_exact x) at 2. f_equal. destruct (exact x); cbn [ext_mul ext_sgn]; try (f_equal; ring); rewrite ?Reqb_f by lra; try reflexivity;
    (rewrite inf_of_pos by lra) || (rewrite inf_of_neg by lra); reflexivity.
Qed.
Lemma one_mul x : exact (Bmult mode_NE x one) = exact x.
Proof.
  rewrite exact_mul, e_one, ext_mul_comm. rewrite <- (rounded_exact x) at 2. f_equal. destruct (exact x); cbn [ext_mul ext_sgn]; try (f_equal; ring); rewrite ?Reqb_f by lra; try reflexivity;
    (rewrite inf_of_pos by lra) || (rewrite inf_of_neg by lra); reflexivity.
Qed.
Lemma add_zero x y : exact y = Fin 0 -> exact (Bplus mode_NE x y) = exact x.
Proof. intros E. rewrite exact_add, E. rewrite <- (rounded_exact x) at 2. f_equal. destruct (exact x); cbn [ext_add]; try reflexivity. f_equal. ring. Qed.
Lemma sub_zero x y : exact y = Fin 0 -> exact (Bminus mode_NE x y) = exact x.
Proof. intros E. rewrite exact_sub, E. rewrite <- (rounded_exact x) at 2. f_equal. unfold ext_sub. destruct (exact x); cbn [ext_add ext_neg]; try reflexivity. f_equal. ring. Qed.
Lemma div_one x : exact (Bdiv mode_NE x one) = exact x.
Proof.
  rewrite exact_div, e_one by (intros H; apply (f_equal B2SF) in H; vm_compute in H; discriminate H). rewrite <- (rounded_exact x) at 2. f_equal.
  destruct (exact x); cbn [ext_div]; rewrite ?Reqb_f by lra; try reflexivity; [f_equal; field|unfold Rltb..]; destruct (Rlt_dec 1 0); try lra; reflexivity.
Qed.

Section Neutral.
  Context (pow : f64 -> f64 -> f64) (lg ex : f64 -> f64) (FP : first_power pow).
  Local Notation O := (f64_ops pow lg ex).
  Lemma recip_one : Bdiv mode_NE (f64_cst L1) one = one. Proof. apply B2SF_inj. vm_compute. reflexivity. Qed.
  Lemma one_ge_tol : f64_ltb (Babs one) (f64_cst Ltol) = false. Proof. vm_compute. reflexivity. Qed.
  Lemma neg_zero_over_one : exact (Bdiv mode_NE (Bopp nil0) one) = Fin 0. Proof. reflexivity. Qed.
  Lemma e_l0 : exact (f64_cst L0) = Fin 0. Proof. reflexivity. Qed.
  (** The value of a term under the neutral operations. *)
  Ltac ev := repeat first
    [ rewrite recip_one | rewrite one_ge_tol | rewrite mul_one | rewrite one_mul | rewrite div_one | rewrite FP
    | rewrite add_zero by exact e_zero | rewrite sub_zero by exact e_zero | rewrite exact_ltb | rewrite exact_geb | rewrite e_l0 | rewrite e_zero ].
  Lemma if_exact (b : bool) (x y : f64) : exact (if b then x else y) = if b then exact x else exact y. Proof. now destruct b. Qed.
  Definition neutral_ok (c : Z * list f64 * (ext -> ext)) : Prop :=
    forall r, option_map exact (eval_parametric O (fst (fst c)) (snd (fst c)) r) = Some (snd c (exact r)).
  Lemma near_one : ext_lt (exact (Bminus mode_NE (Babs one) (f64_cst L1))) (exact (f64_cst Ltol)) = true.
  Proof. rewrite <- exact_ltb. vm_compute. reflexivity. Qed.
  Lemma near_one' : ext_lt (exact (Babs (Bminus mode_NE one (f64_cst L1)))) (exact (f64_cst Ltol)) = true.
  Proof. rewrite <- exact_ltb. vm_compute. reflexivity. Qed.
  Lemma zero_break : exact (f64_max (Bdiv mode_NE (Bopp nil0) one) (f64_cst L0)) = Fin 0. Proof. reflexivity. Qed.
  Lemma neg_nil : exact (Bopp nil0) = Fin 0. Proof. reflexivity. Qed.
  Lemma neutral_all (d : f64) : ext_ge (exact d) (Fin 0) = true -> Forall neutral_ok (neutral d).
  Proof.
    intros D. unfold neutral. repeat apply Forall_cons; try apply Forall_nil; unfold neutral_ok; cbn [fst snd]; intros r;
      unfold eval_parametric; cbn [nth_error option_map]; cbv zeta; cbn [f_lit f_neg f_abs f_add f_sub f_mul f_div f_lt f_ge f_max f_pow f_log10 f_exp f64_ops];
      unfold keep, above, not_below; try (apply f_equal).
    all: rewrite ?one_ge_tol; cbn [orb].
    all: rewrite ?if_exact; ev; rewrite ?if_exact; ev.
    all: rewrite ?near_one, ?near_one', ?zero_break, ?neg_nil.
    all: destruct (exact r) as [x| | |]; try reflexivity; destruct (exact d) as [y| | |]; try discriminate D;
      unfold ext_ge, ext_lt, Rltb in *; repeat (destruct (Rlt_dec _ _); cbn [negb] in * ); try discriminate; try reflexivity; try (apply f_equal); try lra.
  Qed.
  Lemma neutral_eval (d : f64) : ext_ge (exact d) (Fin 0) = true -> forall type ps f, In (type, ps, f) (neutral d) ->
    forall r, option_map exact (eval_parametric O type ps r) = Some (f (exact r)).
  Proof. intros D type ps f I. exact (proj1 (Forall_forall _ _) (neutral_all d D) _ I). Qed.
  (** A break below zero: between the break and zero the power branch gives zero. *)
  Lemma break_below (d r : f64) : ext_ge (exact r) (exact d) = true -> ext_lt (exact r) (Fin 0) = true ->
    forall type ps f, In (type, ps, f) (neutral d) -> In type [4; 5; -5]%Z -> option_map exact (eval_parametric O type ps r) = Some (Fin 0).
  Proof.
    intros GE LT. assert (A : Forall (fun c : Z * list f64 * (ext -> ext) => In (fst (fst c)) [4; 5; -5]%Z -> option_map exact (eval_parametric O (fst (fst c)) (snd (fst c)) r) = Some (Fin 0)) (neutral d)).
    { assert (NP : ext_lt (Fin 0) (exact r) = false) by (destruct (exact r); cbn in *; unfold Rltb in *; repeat destruct (Rlt_dec _ _); try discriminate; try reflexivity; lra).
      unfold neutral. repeat apply Forall_cons; try apply Forall_nil; cbn [fst snd]; intros I; try (exfalso; cbn in I; lia);
        unfold eval_parametric; cbn [nth_error option_map]; cbv zeta; cbn [f_lit f_neg f_abs f_add f_sub f_mul f_div f_lt f_ge f_max f_pow f_log10 f_exp f64_ops]; apply f_equal;
        rewrite ?one_ge_tol; cbn [orb]; rewrite ?if_exact; ev; rewrite ?if_exact; ev; rewrite GE, ?NP, ?LT; reflexivity. }
    intros type ps f I. exact (proj1 (Forall_forall _ _) A _ I).
  Qed.
  Lemma type_m4_any (d r : f64) : option_map exact (eval_parametric O (-4) [one; one; nil0; one; d] r) = Some (exact r).
  Proof.
    unfold eval_parametric; cbn [nth_error option_map]; cbv zeta; cbn [f_lit f_neg f_abs f_add f_sub f_mul f_div f_lt f_ge f_max f_pow f_log10 f_exp f64_ops]; apply f_equal;
        rewrite ?one_ge_tol; cbn [orb]; rewrite ?if_exact; ev; rewrite ?if_exact; ev. now destruct (ext_ge _ _).
  Qed.
  Lemma gamma_same (r : f64) : (forall x, pow x one = x) -> eval_parametric O 1 [one] r = Some r /\ eval_parametric O (-1) [one] r = Some r.
  Proof.
    intros P. unfold eval_parametric; cbn [nth_error]; cbn [f_lit f_neg f_abs f_add f_sub f_mul f_div f_lt f_ge f_max f_pow f_log10 f_exp f64_ops].
    rewrite recip_one, one_ge_tol, P, !exact_ltb, near_one, near_one'. split; now destruct (ext_lt _ _).
  Qed.
End Neutral.
Lemma integer_one : is_integer 1 = true. Proof. exact (is_integer_IZR 1). Qed.
Lemma ext_pow_one (x : ext) : ext_pow x (Fin 1) = x.
Proof.
  destruct x as [a| | |]; cbn [ext_pow]; rewrite (Reqb_f 1) by lra; rewrite ?integer_one; unfold Rltb; try (destruct (Rlt_dec 0 1); [|lra]); try reflexivity.
  - destruct (Rlt_dec 0 a); [now rewrite Rpower_1|]. unfold Reqb. destruct (Req_EM_T a 0) as [->|]; [reflexivity|].
    replace (Z.even (Int_part 1)) with false by (change 1 with (IZR 1); now rewrite Int_part_IZR). rewrite Rpower_1 by lra. f_equal. ring.
  - replace (Z.odd (Int_part 1)) with true by (change 1 with (IZR 1); now rewrite Int_part_IZR). reflexivity.
Qed.
Lemma exact_first (pow : f64 -> f64 -> f64) : exact_pow pow -> first_power pow.
Proof.
  intros E x. rewrite E, e_one, ext_pow_one; [apply rounded_exact|]. intros _. rewrite e_one. cbn. unfold Rltb. destruct (Rlt_dec 1 0); [lra|reflexivity].
Qed.
Lemma signed_first pow lg ex : signed_library pow lg ex -> forall x, pow x one = x.
Proof.
  intros (P & _) x. apply value_inj. rewrite P. unfold sv_pow.
  assert (V1 : value one = SNum 1).
  { assert (E := e_one). rewrite <- plain_value in E. destruct (value one) as [|[|]| |v] eqn:V; cbn [plain] in E; try discriminate E; injection E as E; [exfalso; lra|now subst]. }
  rewrite V1, plain_value. cbn [plain odd_integer]. rewrite ext_pow_one, integer_one.
  replace (Z.odd (Int_part 1)) with true by (change 1 with (IZR 1); now rewrite Int_part_IZR).
  rewrite Bool.andb_true_r. symmetry. apply value_result.
  - symmetry. apply rounded_exact.
  - destruct x as [s|[|]| |s m e B]; try discriminate; reflexivity.
  - destruct x as [s|[|]| |s m e B]; try discriminate; reflexivity.
  - intros b v -> E. injection E as <-. now rewrite Reqb_t.
Qed.

Lemma neutral_examples :
  let eval := eval_parametric (f64_ops ieee_pow ieee_log10 ieee_exp) in
  let c d := [one; one; nil0; one; d] in
  option_map exact (eval 4%Z (c (f64_lit 1 (-1))) (f64_lit (-1) (-1))) = Some (exact (f64_lit (-1) (-1))) /\
  option_map exact (eval 4%Z (c (f64_lit (-1) 0)) (f64_lit (-1) (-1))) = Some (Fin 0) /\
  eval 1%Z [one] neg_zero = Some neg_zero.
Proof.
  cbv zeta. assert (FP : first_power ieee_pow) by (intros x; now rewrite (signed_first _ _ _ ieee_library)). repeat apply conj.
  - apply (neutral_eval _ _ _ FP (f64_lit 1 (-1))) with (f := keep); [rewrite <- e_zero, <- exact_geb; vm_compute; reflexivity|do 6 right; left; reflexivity].
  - apply (break_below _ _ _ FP (f64_lit (-1) 0)) with (f := keep); [rewrite <- exact_geb; vm_compute; reflexivity|rewrite <- e_zero, <- exact_ltb; vm_compute; reflexivity|do 6 right; left; reflexivity|left; reflexivity].
  - apply gamma_same. exact (signed_first _ _ _ ieee_library).
Qed.
