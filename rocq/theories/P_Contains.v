(** Proofs: how the curve types contain each other (C106). *)
From Coq Require Import ZArith List Reals Lia Lra.
From Flocq Require Import Core Plus_error IEEE754.BinarySingleNaN.
From Verif Require Import M_Base M_F64 M_Curve M_CurveF64 M_CurveReal S_F64 S_Exact S_Signed S_Contains P_S15 P_F64 P_Curve3 P_CurveErr P_Ideal P_Exact P_Exact2 P_Exact3 P_Signed P_Signed2 P_Neutral.
Import ListNotations.
Open Scope R_scope.

Local Notation one := (f64_lit 1 0).
Local Notation nil0 := (f64_lit 0 0).
Ltac open_curve := unfold eval_parametric; cbn [nth_error]; cbv zeta; cbn [f_lit f_neg f_abs f_add f_sub f_mul f_div f_lt f_ge f_max f_pow f_log10 f_exp f64_ops].
Lemma alike_eq x y : exact x = exact y -> alike (Some x) (Some y). Proof. intros E. exists x, y. auto. Qed.
Lemma alike_if (b : bool) x y x' y' : (b = true -> exact x = exact x') -> (b = false -> exact y = exact y') -> exact (if b then x else y) = exact (if b then x' else y').
Proof. destruct b; auto. Qed.
Lemma nil_add x y : exact x = Fin 0 -> exact (Bplus mode_NE x y) = exact y.
Proof. intros E. rewrite exact_add, E. rewrite <- (rounded_exact y) at 2. f_equal. destruct (exact y); cbn [ext_add]; try reflexivity. f_equal. ring. Qed.

Lemma some_inj {A} (x y : A) : Some x = Some y -> x = y. Proof. congruence. Qed.

Section Contains.
  Context (pow : f64 -> f64 -> f64) (lg ex : f64 -> f64).
  Local Notation O := (f64_ops pow lg ex).
  Local Notation eval := (eval_parametric O).

  Lemma four_in_five g a b c d e f r : is_nil e -> is_nil f -> alike (eval 5 [g; a; b; c; d; e; f] r) (eval 4 [g; a; b; c; d] r).
  Proof.
    intros E F. open_curve. apply alike_eq. apply alike_if; intros _; [|now apply add_zero]. apply alike_if; intros _; [now apply add_zero|exact E].
  Qed.
  Lemma five_is_four_shifted g a b c d e f r y : eval 4 [g; a; b; c; d] r = Some y ->
    alike (eval 5 [g; a; b; c; d; e; f] r) (Some (f_add O y (if f_ge O r d then e else f))).
  Proof.
    open_curve. intros H. apply some_inj in H. subst y. apply alike_eq. destruct (f64_geb r d); [|reflexivity].
    destruct (f64_ltb _ _); [reflexivity|]. symmetry. now apply nil_add.
  Qed.
  Lemma tiny_b a : ~ tiny a -> f64_ltb (Babs a) (f64_cst Ltol) = false.
  Proof. unfold tiny. rewrite exact_ltb, exact_abs. destruct (ext_lt _ _); [intros H; now destruct H|reflexivity]. Qed.
  Lemma two_in_four g a b c r : ~ tiny a -> is_nil c -> is_finite r = true -> alike (eval 4 [g; a; b; c; f_div O (f_neg O b) a] r) (eval 2 [g; a; b] r).
  Proof.
    intros T C F. open_curve. rewrite tiny_b by exact T. apply alike_eq. apply alike_if; intros _; [reflexivity|].
    rewrite exact_mul, C. destruct (exact_case r) as [(_ & ->)|[->|[->| ->]]]; try discriminate F. cbn [ext_mul]. rewrite Rmult_0_r.
    exact (rounded_exact nil0).
  Qed.
  Lemma max_nil x r : no_less r nil0 -> exact x <> NaN -> f64_geb r (f64_max x (f64_cst L0)) = f64_geb r x.
  Proof.
    intros N X. unfold no_less in N. rewrite !exact_geb, exact_max. cbn [f64_cst]. revert N X. rewrite e_zero.
    destruct (exact x), (exact r); cbn; unfold Rltb; repeat (destruct (Rlt_dec _ _); cbn); try reflexivity; try discriminate; try lra; intros; try congruence; try lra.
  Qed.
  Lemma rounded_nan x : rounded x = NaN -> x = NaN.
  Proof. destruct x; cbn [rounded]; try discriminate; [|reflexivity]. destruct (Rlt_bool _ _); [discriminate|]. now destruct (Rlt_bool _ _). Qed.
  Lemma not_tiny_nz a : ~ tiny a -> exact a <> Fin 0.
  Proof. intros T E. apply T. unfold tiny. rewrite E. cbn [ext_abs]. rewrite Rabs_R0. assert (H : f64_ltb nil0 (f64_cst Ltol) = true) by (vm_compute; reflexivity). rewrite exact_ltb in H. exact H. Qed.
  Lemma break_nan a b r : ~ tiny a -> ~ (infinite a /\ infinite b) -> exact (Bdiv mode_NE (Bopp b) a) = NaN -> exact (Bplus mode_NE (Bmult mode_NE a r) b) = NaN.
  Proof.
    intros T I. rewrite exact_div by (intros ->; now apply (not_tiny_nz _ T)). rewrite exact_add, exact_mul, exact_neg. intros N. apply rounded_nan in N.
    pose proof (not_tiny_nz a T) as Z0. unfold infinite in I.
    destruct (exact a) as [x| | |] eqn:A, (exact b) as [y| | |] eqn:B; cbn [ext_neg ext_div] in N;
      try (destruct (Rltb _ _); discriminate N); try discriminate N; try (exfalso; apply I; auto; fail).
    all: try (destruct (exact r); reflexivity).
    all: try (destruct (rounded (ext_mul _ _)); reflexivity).
    rewrite Reqb_f in N; [discriminate N|]. intros ->. now apply Z0.
  Qed.
  Lemma two_in_three g a b c r : ~ (infinite a /\ infinite b) -> is_nil c -> no_less r nil0 -> alike (eval 3 [g; a; b; c] r) (eval 2 [g; a; b] r).
  Proof.
    intros I C N. open_curve. apply alike_eq. destruct (f64_ltb (Babs a) (f64_cst Ltol)) eqn:T; [reflexivity|].
    assert (NT : ~ tiny a) by (unfold tiny; rewrite exact_ltb, exact_abs in T; congruence).
    destruct (exact (Bdiv mode_NE (Bopp b) a)) eqn:X; [rewrite max_nil by congruence..|].
    1-3: apply alike_if; intros _; [|exact C]; apply alike_if; intros _; [now apply add_zero|reflexivity].
    pose proof (break_nan a b r NT I X) as E. rewrite (exact_ltb _ (Bplus _ _ _)), (exact_geb r (Bdiv _ _ _)), X, E.
    destruct (exact r); cbn; (destruct (f64_geb _ _); [reflexivity|exact C]).
  Qed.
  (** With an offset: except where the formula's base is not positive, type 3 is type 2 shifted. *)
  Lemma three_is_two_shifted g a b c r y : ~ tiny a -> ~ (infinite a /\ infinite b) -> no_less r nil0 -> eval 2 [g; a; b] r = Some y ->
    less nil0 (f_add O (f_mul O a r) b) \/ less r (f_div O (f_neg O b) a) -> alike (eval 3 [g; a; b; c] r) (Some (f_add O y c)).
  Proof.
    intros T I N. open_curve. rewrite tiny_b by exact T. intros H D. apply some_inj in H. subst y. apply alike_eq.
    assert (X : exact (Bdiv mode_NE (Bopp b) a) <> NaN).
    { unfold less in D. intros X. rewrite X, (break_nan a b r T I X) in D. destruct D as [D|D]; [discriminate D|destruct (exact r); discriminate D]. }
    rewrite max_nil by assumption. destruct (f64_geb r (Bdiv mode_NE (Bopp b) a)) eqn:G; [|symmetry; now apply nil_add].
    assert (less nil0 (Bplus mode_NE (Bmult mode_NE a r) b)) as L.
    { destruct D as [D|D]; [exact D|]. unfold less in D. rewrite exact_geb in G. unfold ext_ge in G. rewrite D in G. destruct (exact r), (exact (Bdiv mode_NE (Bopp b) a)); discriminate G. }
    unfold less in L. rewrite !(exact_ltb (f64_cst L0)). change (exact (f64_cst L0)) with (exact nil0). rewrite L. reflexivity.
  Qed.
  Lemma pos_times_one r : less nil0 r -> Bplus mode_NE (Bmult mode_NE one r) nil0 = r.
  Proof.
    intros L. assert (E : exact (Bplus mode_NE (Bmult mode_NE one r) nil0) = exact r) by (now rewrite add_zero, mul_one).
    apply same_nonzero; [exact E|]. rewrite E. intros Z0. unfold less in L. rewrite Z0, e_zero in L. cbn in L. unfold Rltb in L. destruct (Rlt_dec 0 0); [lra|discriminate L].
  Qed.
  Lemma one_in_two g r : less nil0 r -> eval 2 [g; one; nil0] r = eval 1 [g] r.
  Proof.
    intros L. open_curve. change (f64_ltb (Babs one) (f64_cst Ltol)) with (f64_ltb (Babs one) (f64_cst Ltol)). rewrite one_ge_tol.
    rewrite pos_times_one by exact L. rewrite (exact_ltb (f64_cst L0) r). change (exact (f64_cst L0)) with (exact nil0). rewrite L.
    rewrite exact_geb, neg_zero_over_one, (exact_ltb r (f64_cst L0)). unfold less in L. rewrite e_zero in L. change (exact (f64_cst L0)) with (Fin 0).
    destruct (exact r) as [x| | |]; try discriminate L; cbn in *; unfold Rltb in *; repeat destruct (Rlt_dec _ _); try discriminate L; try lra; reflexivity.
  Qed.
  Lemma six_in_five g a b c c' d f r : no_less r d -> less nil0 (f_add O (f_mul O a r) b) \/ less (f_add O (f_mul O a r) b) nil0 ->
    eval 5 [g; a; b; c'; d; c; f] r = eval 6 [g; a; b; c] r.
  Proof.
    intros N D. open_curve. unfold less in D. cbn [f_add f_mul f64_ops] in D. rewrite (exact_geb r d), N, !exact_ltb. change (exact (f64_cst L0)) with (exact nil0).
    rewrite e_zero in *. destruct (exact (Bplus mode_NE (Bmult mode_NE a r) b)); destruct D as [D|D]; try discriminate D; try reflexivity;
      cbn in *; unfold Rltb in *; repeat destruct (Rlt_dec _ _); try discriminate D; try lra; reflexivity.
  Qed.
  Lemma six_in_five_nil g a b c c' d f r : no_less r d -> is_nil (f_add O (f_mul O a r) b) -> (forall z, is_nil z -> is_nil (pow z g)) ->
    alike (eval 5 [g; a; b; c'; d; c; f] r) (eval 6 [g; a; b; c] r).
  Proof.
    intros N D P. open_curve. apply alike_eq. cbn [f_add f_mul f64_ops] in D. rewrite (exact_geb r d), N, !exact_ltb. change (exact (f64_cst L0)) with (exact nil0).
    pose proof D as D'. unfold is_nil in D'. rewrite D', e_zero. cbn. unfold Rltb. destruct (Rlt_dec 0 0); [lra|]. symmetry. apply nil_add. exact (P _ D).
  Qed.
  Lemma seven_affine g a b c d r y : (exists v, exact a = Fin v) -> eval 7 [g; one; b; c; nil0] r = Some y ->
    alike (eval 7 [g; a; b; c; d] r) (Some (f_add O (f_mul O a y) d)).
  Proof.
    intros (v & A). open_curve. intros H. apply some_inj in H. subst y. apply alike_eq. destruct (f64_geb _ _).
    - symmetry. apply nil_add. rewrite exact_mul, A. rewrite e_zero. cbn [ext_mul]. rewrite Rmult_0_r. exact (rounded_exact nil0).
    - apply c_add; [|reflexivity]. apply c_mul; [reflexivity|]. now rewrite add_zero, mul_one.
  Qed.
  Lemma eight_affine a b c d e r y : eval 8 [one; b; c; d; nil0] r = Some y -> alike (eval 8 [a; b; c; d; e] r) (Some (f_add O (f_mul O a y) e)).
  Proof.
    open_curve. intros H. apply some_inj in H. subst y. apply alike_eq. apply c_add; [|reflexivity]. apply c_mul; [reflexivity|]. now rewrite add_zero, mul_one.
  Qed.
  Lemma s_shapes g r : ~ tiny g -> exists y, eval 108 [g] r = Some y /\
    eval (-108) [f_div O one g] (f_sub O one r) = Some (f_sub O one y).
  Proof. intros T. open_curve. rewrite tiny_b by exact T. eexists. split; reflexivity. Qed.
  Lemma m6_in_m5 g a b c c' d f r : ~ tiny g -> no_less r (f_add O (f_mul O c' d) f) -> eval (-5) [g; a; b; c'; d; c; f] r = eval (-6) [g; a; b; c] r.
  Proof.
    intros T N. open_curve. rewrite (tiny_b g) by exact T. cbn [orb]. cbn [f_add f_mul f64_ops] in N. rewrite (exact_geb r (Bplus _ _ _)), N.
    destruct (f64_ltb (Babs a) _), (f64_ltb (Bminus _ _ _) _); reflexivity.
  Qed.
  Lemma difference_above r c : less c r -> ext_lt (Fin 0) (exact (Bminus mode_NE r c)) = true.
  Proof.
    unfold less. rewrite exact_sub. unfold ext_sub.
    destruct (exact_case r) as [(_ & ->)|[->|[->| ->]]], (exact_case c) as [(_ & ->)|[->|[->| ->]]]; cbn [exact ext_lt ext_neg ext_add rounded]; try discriminate; try reflexivity.
    unfold Rltb at 1. destruct (Rlt_dec (B2R c) (B2R r)) as [L|]; [|discriminate]. intros _.
    assert (Q : 0 < nearest (B2R r + - B2R c)).
    { rewrite nearest_rne. assert (X : rne (B2R r + - B2R c) <> 0).
      { apply round_plus_neq_0; try apply valid_rnd_round_mode.
        - now apply fexp_correct.
        - intros k. change (SpecFloat.fexp 53 1024) with (FLT_exp (-1074) 53). unfold FLT_exp. lia.
        - apply generic_format_B2R.
        - apply generic_format_opp, generic_format_B2R.
        - lra. }
      assert (rne 0 <= rne (B2R r + - B2R c)) by (apply round_le; [now apply fexp_correct|apply valid_rnd_round_mode|lra]).
      rewrite round_0 in H by apply valid_rnd_round_mode. lra. }
    destruct (Rlt_bool _ _); cbn [ext_lt]; [unfold Rltb; destruct (Rlt_dec _ _); [reflexivity|lra]|]. rewrite Rlt_bool_false by lra. reflexivity.
  Qed.
  Lemma m3_is_m6 g a b c r : less c r -> eval (-3) [g; a; b; c] r = eval (-6) [g; a; b; c] r.
  Proof.
    intros L. pose proof (difference_above r c L) as D. open_curve. destruct (f64_ltb (Babs a) _); [reflexivity|].
    assert (G : f64_geb r c = true) by (unfold less in L; rewrite exact_geb; destruct (exact r), (exact c); try discriminate L; try reflexivity; cbn in *; unfold Rltb in *; repeat destruct (Rlt_dec _ _); try discriminate L; try lra; reflexivity).
    rewrite G, (exact_ltb (f64_cst L0)), (exact_ltb _ (f64_cst L0)), e_l0, D.
    replace (ext_lt _ _) with false; [reflexivity|].
    destruct (exact (Bminus mode_NE r c)); try discriminate D; try reflexivity; cbn in *; unfold Rltb in *; repeat destruct (Rlt_dec _ _); try discriminate D; try lra; reflexivity.
  Qed.
  Lemma m2_is_m4 g a b c d r y : ~ tiny g -> ~ tiny a -> no_less r nil0 -> 
    no_less r (if f_lt O (f_add O (f_mul O a d) b) nil0 then nil0 else pow (f_add O (f_mul O a d) b) g) -> eval (-4) [g; a; b; c; d] r = Some y ->
    eval (-2) [g; a; b] r = Some (if f_lt O y nil0 then nil0 else y).
  Proof.
    intros T A N D. open_curve. unfold no_less in *. cbn [f_add f_mul f_lt f64_ops] in D. rewrite !exact_geb. change (f64_cst L0) with nil0. rewrite D.
    rewrite !tiny_b by assumption. cbn [orb]. intros H. apply some_inj in H. subst y. rewrite (exact_ltb r nil0). 
    replace (ext_lt (exact r) (exact nil0)) with false; [reflexivity|]. rewrite e_zero in *. destruct (exact r); try discriminate N; try reflexivity. cbn in *. now destruct (Rltb _ _).
  Qed.
  Lemma m1_is_m2 g r : ~ tiny g -> no_less r nil0 -> ~ less (pow r (f_div O one g)) nil0 -> alike (eval (-2) [g; one; nil0] r) (eval (-1) [g] r).
  Proof.
    intros T N P. open_curve. rewrite (tiny_b g), one_ge_tol by exact T. cbn [orb]. apply alike_eq.
    assert (R : f64_ltb r (f64_cst L0) = false).
    { unfold no_less in N. rewrite exact_ltb. change (exact (f64_cst L0)) with (exact nil0). unfold ext_ge in N. destruct (exact r), (exact nil0); try discriminate N; try reflexivity; now destruct (ext_lt _ _). }
    rewrite R. unfold less in P. cbn [f_div f64_ops] in P. change (f64_cst L1) with one.
    assert (E : exact (Bdiv mode_NE (Bminus mode_NE (pow r (Bdiv mode_NE one g)) nil0) one) = exact (pow r (Bdiv mode_NE one g))) by (now rewrite div_one, sub_zero).
    rewrite exact_ltb, E. change (exact (f64_cst L0)) with (exact nil0). destruct (ext_lt _ _); [now destruct P|exact E].
  Qed.
  Lemma m4_in_m5 g a b c d e f r : is_nil e -> is_nil f -> less nil0 r ->
    (no_less r (f_add O (f_mul O c d) f) <-> no_less r (if f_lt O (f_add O (f_mul O a d) b) nil0 then nil0 else pow (f_add O (f_mul O a d) b) g)) ->
    alike (eval (-5) [g; a; b; c; d; e; f] r) (eval (-4) [g; a; b; c; d] r).
  Proof.
    intros E F N D. open_curve. apply alike_eq. unfold no_less in D. cbn [f_add f_mul f_lt f64_ops] in D. change (f64_cst L0) with nil0.
    assert (NZ : exact r <> Fin 0).
    { intros Z0. unfold less in N. rewrite Z0, e_zero in N. cbn in N. unfold Rltb in N. destruct (Rlt_dec 0 0); [lra|discriminate N]. }
    assert (R : Bminus mode_NE r e = r) by (apply same_nonzero; rewrite sub_zero by exact E; auto).
    assert (L : f64_ltb r nil0 = false).
    { unfold less in N. rewrite exact_ltb. rewrite e_zero in *. destruct (exact r); try discriminate N; try reflexivity. cbn in *. unfold Rltb in *. repeat destruct (Rlt_dec _ _); try discriminate N; try lra; reflexivity. }
    rewrite R, L. rewrite !exact_geb. destruct (ext_ge (exact r) (exact (Bplus _ _ _))), (ext_ge (exact r) (exact (if f64_ltb _ _ then _ else _)));
      try (exfalso; destruct D as (D & D'); (now discriminate D) || (now discriminate D')); [reflexivity|].
    apply alike_if; intros _; [reflexivity|]. apply c_div. now apply sub_zero.
  Qed.
End Contains.

Local Open Scope Z_scope.
Lemma some_same (x y : f64) : B2SF x = B2SF y -> Some x = Some y. Proof. intros H. f_equal. now apply B2SF_inj. Qed.
Lemma contains_examples :
  let eval := eval_parametric (f64_ops (fun x _ => x) (fun x => x) (fun x => x)) in
  let I := f64_lit 1 0 in let Z := f64_lit 0 0 in let inf := B754_infinity false in
  (~ tiny I /\ is_nil Z /\ is_finite (f64_lit (-1) (-1)) = true /\
   eval 2 [I; I; I] (f64_lit (-1) (-1)) = Some (f64_lit 1 (-1)) /\ eval 4 [I; I; I; Z; f64_lit (-1) 0] (f64_lit (-1) (-1)) = Some (f64_lit 1 (-1))) /\
  (eval 2 [I; I; I] (B754_infinity true) = Some Z /\ eval 4 [I; I; I; Z; f64_lit (-1) 0] (B754_infinity true) = Some B754_nan) /\
  eval 3 [I; I; I; Z] (f64_lit (-1) (-1)) = Some Z /\
  (eval 2 [I; inf; inf] I = Some Z /\ eval 3 [I; inf; inf; Z] I = Some inf) /\
  (eval 2 [I; f64_lit (-1) 0; I] (f64_lit 2 0) = Some Z /\ eval 3 [I; f64_lit (-1) 0; I; I] (f64_lit 2 0) = Some Z) /\
  (eval 6 [I; B754_nan; Z; I] I = Some B754_nan /\ eval 5 [I; B754_nan; Z; Z; Z; I; Z] I = Some I) /\
  (eval 7 [I; I; Z; Z; Z] I = Some Z /\ eval 7 [I; inf; Z; Z; I] I = Some I /\ Bmult mode_NE inf Z = B754_nan).
Proof.
  assert (T : ~ tiny (f64_lit 1 0)) by (unfold tiny; intros T; rewrite <- exact_abs, <- exact_ltb in T; vm_compute in T; discriminate T).
  cbv zeta. repeat match goal with |- _ /\ _ => split end; try exact T; try reflexivity; apply some_same; vm_compute; reflexivity.
Qed.
