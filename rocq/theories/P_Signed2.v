(** The sign of a zero input. *)
From Coq Require Import ZArith List Reals Lia Lra.
From Flocq Require Import Core IEEE754.BinarySingleNaN.
From Verif Require Import M_Base M_F64 M_Curve M_CurveF64 M_CurveReal S_F64 S_Exact S_Signed S_Pow P_S15 P_F64 P_Curve3 P_CurveErr P_Ideal P_Exact P_Exact2 P_Exact3 P_Pow P_Signed.
Import ListNotations.
Open Scope R_scope.

Lemma same_nonzero (x y : f64) : exact x = exact y -> exact x <> Fin 0 -> x = y.
Proof.
  intros E N. apply value_inj. destruct x as [s|[|]| |s m e B], y as [s'|[|]| |s' m' e' B']; try discriminate E; try reflexivity;
    try (now destruct N); try (now rewrite E in N). cbn [value]. cbn [exact] in E. congruence.
Qed.
Lemma above_zero (x y : f64) : exact x = exact y -> f64_ltb (f64_cst L0) x = true -> x = y.
Proof.
  intros E L. apply same_nonzero; [exact E|]. intros Z. rewrite exact_ltb, Z in L. rewrite exact_cst in L. unfold ext_lit in L. rewrite rounded_0 in L. cbn [ext_lt] in L.
  unfold Rltb in L. destruct (Rlt_dec 0 0); [lra|discriminate L].
Qed.
Lemma c_add x x' y y' : exact x = exact x' -> exact y = exact y' -> exact (Bplus mode_NE x y) = exact (Bplus mode_NE x' y').
Proof. intros. rewrite !exact_add. congruence. Qed.
Lemma c_sub x x' y y' : exact x = exact x' -> exact y = exact y' -> exact (Bminus mode_NE x y) = exact (Bminus mode_NE x' y').
Proof. intros. rewrite !exact_sub. congruence. Qed.
Lemma c_mul x x' y y' : exact x = exact x' -> exact y = exact y' -> exact (Bmult mode_NE x y) = exact (Bmult mode_NE x' y').
Proof. intros. rewrite !exact_mul. congruence. Qed.
Lemma c_div x x' y : exact x = exact x' -> exact (Bdiv mode_NE x y) = exact (Bdiv mode_NE x' y).
Proof.
  intros E. assert (D : y = neg_zero \/ y <> neg_zero) by (destruct y as [[|]|s| |s m e B]; [now left|right; discriminate..]).
  destruct D as [->|N]; [now rewrite !exact_div_neg_zero, E|]. rewrite !exact_div by exact N. now rewrite E.
Qed.
Lemma c_ltb x x' y y' : exact x = exact x' -> exact y = exact y' -> f64_ltb x y = f64_ltb x' y'.
Proof. intros. rewrite !exact_ltb. congruence. Qed.
Lemma c_geb x x' y y' : exact x = exact x' -> exact y = exact y' -> f64_geb x y = f64_geb x' y'.
Proof. intros. rewrite !exact_geb. congruence. Qed.
Lemma c_if (b b' : bool) (x x' y y' : f64) : b = b' -> (b = true -> exact x = exact x') -> (b = false -> exact y = exact y') -> exact (if b then x else y) = exact (if b' then x' else y').
Proof. intros <-. destruct b; auto. Qed.

Section Lib.
  Context (pow : f64 -> f64 -> f64) (lg ex : f64 -> f64) (L : signed_library pow lg ex).
  Local Notation O := (f64_ops pow lg ex).
  (** Powers do not see the sign of a zero exponent, logarithms not that of a zero argument. *)
  Lemma pow_exponent b y y' : exact y = exact y' -> pow b y = pow b y'.
  Proof.
    intros E. destruct (exact y) as [v| | |] eqn:EY; try (now rewrite (same_nonzero y y') by (rewrite ?EY; congruence)).
    destruct (Req_dec v 0) as [->|NV]; [|now rewrite (same_nonzero y y') by (rewrite ?EY; congruence)].
    apply exact_zero_iff in EY as (s & ->). symmetry in E. apply exact_zero_iff in E as (s' & ->). apply value_inj. rewrite !(proj1 L). unfold sv_pow.
    cbn [value odd_integer plain]. reflexivity.
  Qed.
  Lemma log_zero x x' : exact x = exact x' -> lg x = lg x'.
  Proof.
    intros E. destruct (exact x) as [v| | |] eqn:EX; try (now rewrite (same_nonzero x x') by (rewrite ?EX; congruence)).
    destruct (Req_dec v 0) as [->|NV]; [|now rewrite (same_nonzero x x') by (rewrite ?EX; congruence)].
    apply exact_zero_iff in EX as (s & ->). symmetry in E. apply exact_zero_iff in E as (s' & ->). apply value_inj. rewrite !(proj1 (proj2 L)). reflexivity.
  Qed.
  (** Powers with a non-negative exponent do not see the sign of a zero base. *)
  Lemma pow_base x x' y : exact x = exact x' -> ext_lt (exact y) (Fin 0) = false -> exact (pow x y) = exact (pow x' y).
  Proof.
    intros E N. destruct (exact x) as [v| | |] eqn:EX; try (now rewrite (same_nonzero x x') by (rewrite ?EX; congruence)).
    destruct (Req_dec v 0) as [->|NV]; [|now rewrite (same_nonzero x x') by (rewrite ?EX; congruence)].
    destruct (signed_exact _ _ _ L) as (P & _). rewrite !P by (intros _; exact N). now rewrite EX, E.
  Qed.
  Lemma pow_of_zero s g : ext_lt (exact g) (Fin 0) = true -> exists b, pow (B754_zero s) g = B754_infinity b.
  Proof.
    intros N. enough (H : exists b, value (pow (B754_zero s) g) = SInf b) by (destruct H as (b & H); exists b; now apply value_inj).
    rewrite (proj1 L). unfold sv_pow. rewrite !plain_value. change (exact (B754_zero s)) with (Fin 0). destruct (exact g) as [y| | |]; try discriminate N; cbn [ext_pow].
    - cbn [ext_lt] in N. unfold Rltb in N. destruct (Rlt_dec y 0) as [Y|]; [|discriminate N]. rewrite (Reqb_f y 0) by lra. unfold Rltb.
      destruct (Rlt_dec 0 0); [lra|]. rewrite Reqb_t. destruct (Rlt_dec 0 y); [lra|]. now eexists.
    - rewrite Rabs_R0, (Reqb_f 0 1) by lra. unfold Rltb. destruct (Rlt_dec 0 1); [|lra]. now eexists.
  Qed.
  Lemma pow_of_inf s g : ext_lt (exact g) (Fin 0) = true -> exists b, value (pow (B754_infinity s) g) = SZero b.
  Proof.
    intros N. rewrite (proj1 L). unfold sv_pow. rewrite !plain_value. destruct (exact g) as [y| | |]; try discriminate N.
    - cbn [ext_lt] in N. unfold Rltb in N. destruct (Rlt_dec y 0) as [Y|]; [|discriminate N].
      destruct s; cbn [exact ext_pow]; rewrite (Reqb_f y) by lra; unfold Rltb; (destruct (Rlt_dec 0 y); [lra|]); cbn [result]; rewrite Reqb_t; now eexists.
    - destruct s; cbn [exact ext_pow result]; rewrite Reqb_t; now eexists.
  Qed.
  Lemma one_minus_zero s : Bminus mode_NE (f64_cst L1) (B754_zero s) = f64_cst L1.
  Proof. destruct s; apply B2SF_inj; vm_compute; reflexivity. Qed.
  Lemma inv_s_zero g s : exact (Bminus mode_NE (f64_cst L1) (pow (Bminus mode_NE (f64_cst L1) (pow (B754_zero s) g)) g)) =
    exact (Bminus mode_NE (f64_cst L1) (pow (Bminus mode_NE (f64_cst L1) (pow (B754_zero (negb s)) g)) g)).
  Proof.
    destruct (ext_lt (exact g) (Fin 0)) eqn:LT.
    - (* negative exponent *)
      assert (C : forall t, exact (Bminus mode_NE (f64_cst L1) (pow (Bminus mode_NE (f64_cst L1) (pow (B754_zero t) g)) g)) = exact (f64_cst L1)).
      { intros t. destruct (pow_of_zero t g LT) as (b & ->).
        change (Bminus mode_NE (f64_cst L1) (B754_infinity b)) with (B754_infinity (negb b) : f64).
        destruct (pow_of_inf (negb b) g LT) as (b' & H). apply (value_inj _ (B754_zero b')) in H. rewrite H. now rewrite one_minus_zero. }
      now rewrite !C.
    - pose proof (pow_base (B754_zero s) (B754_zero (negb s)) g eq_refl LT) as E.
      assert (Q : Bminus mode_NE (f64_cst L1) (pow (B754_zero s) g) = Bminus mode_NE (f64_cst L1) (pow (B754_zero (negb s)) g)); [|now rewrite Q].
      destruct (exact (pow (B754_zero s) g)) as [v| | |] eqn:EV; try (f_equal; apply same_nonzero; congruence).
      destruct (Req_dec v 0) as [->|NV]; [|f_equal; apply same_nonzero; congruence].
      apply exact_zero_iff in EV as (b & ->). symmetry in E. apply exact_zero_iff in E as (b' & ->). now rewrite !one_minus_zero.
  Qed.
  Lemma recip_nonneg g : positive g -> ext_lt (exact (Bdiv mode_NE (f64_cst L1) g)) (Fin 0) = false.
  Proof.
    intros (F & P). rewrite exact_div by (intros ->; cbn in P; lra). rewrite exact_one, (exact_fin g F). cbn [ext_div]. rewrite Reqb_f by lra.
    assert (Q : 0 < 1 / B2R g) by (apply Rdiv_lt_0_compat; lra). assert (R : 0 <= nearest (1 / B2R g)) by (rewrite nearest_rne; apply rne_ge; [apply fmt0|lra]).
    cbn [rounded]. destruct (Rlt_bool _ _); [cbn [ext_lt]; unfold Rltb; destruct (Rlt_dec _ _); [lra|reflexivity]|]. now rewrite Rlt_bool_false by lra.
  Qed.
  Lemma pos_nonneg g : positive g -> ext_lt (exact g) (Fin 0) = false.
  Proof. intros (F & P). rewrite (exact_fin g F). cbn [ext_lt]. unfold Rltb. destruct (Rlt_dec _ _); [lra|reflexivity]. Qed.

  Ltac go ps n := match n with
    | O => idtac
    | S ?m => destruct ps as [|?x ps]; [reflexivity|]; cbn [nth_error]; first [has_none; go ps m | idtac]
    end
  with has_none := match goal with |- context [@None] => idtac end.
  Ltac cng := repeat first
    [ reflexivity
    | match goal with
      | |- exact (if _ then _ else _) = exact (if _ then _ else _) => apply c_if; [|intros ?|intros ?]
      | |- exact (Bplus _ _ _) = exact (Bplus _ _ _) => apply c_add
      | |- exact (Bminus _ _ _) = exact (Bminus _ _ _) => apply c_sub
      | |- exact (Bmult _ _ _) = exact (Bmult _ _ _) => apply c_mul
      | |- exact (Bdiv _ _ _) = exact (Bdiv _ _ _) => apply c_div
      | |- f64_ltb _ _ = f64_ltb _ _ => apply c_ltb
      | |- f64_geb _ _ = f64_geb _ _ => apply c_geb
      | H : f64_ltb (f64_cst L0) ?x = true |- exact (pow ?x ?y) = exact (pow ?x' ?y) => rewrite (above_zero x x'); [reflexivity| |exact H]
      | H : positive ?y |- exact (pow ?x ?y) = exact (pow ?x' ?y) => apply pow_base; [|exact (pos_nonneg y H)]
      | H : positive ?g |- exact (pow ?x (Bdiv _ _ ?g)) = exact (pow ?x' _) => apply pow_base; [|exact (recip_nonneg g H)]
      | |- exact (pow ?b ?y) = exact (pow ?b ?y') => rewrite (pow_exponent b y y'); [reflexivity|]
      | |- exact (lg ?x) = exact (lg ?x') => rewrite (log_zero x x'); [reflexivity|]
      end ].
  Lemma blind type ps : ~ In type [1; -1; -2; -4; -5; 6; -6; 7]%Z ->
    option_map exact (eval_parametric O type ps zero) = option_map exact (eval_parametric O type ps neg_zero).
  Proof.
    intros N. unfold eval_parametric.
    destruct type as [|p|p]; [reflexivity|..];
    repeat (destruct p as [p|p|]; try reflexivity); try (exfalso; apply N; cbn; tauto);
    go ps 7%nat; cbn [option_map]; f_equal; cbv zeta; cbn [f_lit f_neg f_abs f_add f_sub f_mul f_div f_lt f_ge f_max f_pow f_log10 f_exp f64_ops].
    all: try exact (inv_s_zero _ false).
    all: try match goal with |- context [pow ?b (Bdiv mode_NE (Bminus mode_NE zero ?d) ?a)] =>
      rewrite (pow_exponent b (Bdiv mode_NE (Bminus mode_NE zero d) a) (Bdiv mode_NE (Bminus mode_NE neg_zero d) a)) by cng end.
    all: cng.
  Qed.
  Lemma blind_positive type g ps : In type [1; -1; -2; -4; -5; 6; -6; 7]%Z -> positive g ->
    option_map exact (eval_parametric O type (g :: ps) zero) = option_map exact (eval_parametric O type (g :: ps) neg_zero).
  Proof.
    intros I G. repeat destruct I as [<-|I]; try contradiction; unfold eval_parametric; cbn [nth_error];
    try (has_none; go ps 6%nat); cbn [option_map]; f_equal; cbv zeta; cbn [f_lit f_neg f_abs f_add f_sub f_mul f_div f_lt f_ge f_max f_pow f_log10 f_exp f64_ops].
    all: cng.
  Qed.

  Definition i64 (z : Z) : f64 := f64_lit z 0.
  Lemma value_m1 : value (i64 (-1)) = SNum (-1).
  Proof.
    destruct (f64_lit_exact (-1) 0 ltac:(lia) ltac:(lia)) as (V & F). fold (i64 (-1)) in V, F. destruct (i64 (-1)) as [s|s| |s m e B] eqn:E; try discriminate F.
    - apply (f_equal B2SF) in E. vm_compute in E. discriminate E.
    - cbn [value]. f_equal. rewrite V. cbn. lra.
  Qed.
  Lemma recip_of_zero s : pow (B754_zero s) (i64 (-1)) = B754_infinity s.
  Proof.
    apply value_inj. rewrite (proj1 L), value_m1. unfold sv_pow. cbn [value plain minus odd_integer ext_pow]. change (-1) with (IZR (-1)).
    rewrite is_integer_IZR, Int_part_IZR. rewrite (Reqb_f (IZR (-1)) 0), Reqb_t by lra. unfold Rltb. destruct (Rlt_dec 0 0); [lra|]. destruct (Rlt_dec 0 (IZR (-1))); [lra|].
    cbn [result]. now destruct s.
  Qed.
  Lemma recip_m1 : Bdiv mode_NE (f64_cst L1) (i64 (-1)) = i64 (-1). Proof. apply B2SF_inj. vm_compute. reflexivity. Qed.
  Lemma log_inf : lg (B754_infinity false) = B754_infinity false.
  Proof. apply value_inj. now rewrite (proj1 (proj2 L)). Qed.
  Ltac closed a := match a with context [pow] => fail 1 | context [lg] => fail 1 | _ => idtac end.
  Ltac guards := repeat match goal with
    | |- context [f64_ltb ?a ?b] => closed a; closed b; let v := eval vm_compute in (f64_ltb a b) in match v with true => idtac | false => idtac end; replace (f64_ltb a b) with v by (vm_compute; reflexivity); cbn [orb]
    | |- context [f64_geb ?a ?b] => closed a; closed b; let v := eval vm_compute in (f64_geb a b) in match v with true => idtac | false => idtac end; replace (f64_geb a b) with v by (vm_compute; reflexivity)
    | _ => rewrite recip_m1
    | _ => rewrite recip_of_zero
    | _ => rewrite log_inf
    end.
  Ltac fin := f_equal; apply B2SF_inj; vm_compute; reflexivity.
  Ltac run := unfold zero, neg_zero, eval_parametric; cbn [nth_error]; cbv zeta; cbn [f_lit f_neg f_abs f_add f_sub f_mul f_div f_lt f_ge f_max f_pow f_log10 f_exp f64_ops]; guards; try fin.
  Lemma seen1 s : eval_parametric O 1 [i64 (-1)] (B754_zero s) = Some (B754_infinity s). Proof. destruct s; run. Qed.
  Lemma seenr1 s : eval_parametric O (-1) [i64 (-1)] (B754_zero s) = Some (B754_infinity s). Proof. destruct s; run. Qed.
  Lemma seenr2 s : eval_parametric O (-2) [i64 (-1); i64 1; i64 0] (B754_zero s) = Some (if s then zero else B754_infinity false). Proof. destruct s; run. Qed.
  Lemma seenr4 s : eval_parametric O (-4) [i64 (-1); i64 1; i64 0; i64 1; i64 (-1)] (B754_zero s) = Some (B754_infinity s). Proof. destruct s; run. Qed.
  Lemma seenr5 s : eval_parametric O (-5) [i64 (-1); i64 1; i64 0; i64 1; i64 0; i64 0; i64 0] (B754_zero s) = Some (B754_infinity s).
  Proof.
    unfold eval_parametric; cbn [nth_error]; cbv zeta; cbn [f_lit f_neg f_abs f_add f_sub f_mul f_div f_lt f_ge f_max f_pow f_log10 f_exp f64_ops].
    assert (Bminus mode_NE (B754_zero s) (i64 0) = (B754_zero s : f64)) as -> by (apply B2SF_inj; destruct s; vm_compute; reflexivity). destruct s; guards; fin.
  Qed.
  Lemma seen6 s : eval_parametric O 6 [i64 (-1); i64 1; neg_zero; i64 0] (B754_zero s) = Some (B754_infinity s).
  Proof.
    unfold eval_parametric; cbn [nth_error]; cbv zeta; cbn [f_lit f_neg f_abs f_add f_sub f_mul f_div f_lt f_ge f_max f_pow f_log10 f_exp f64_ops].
    assert (Bplus mode_NE (Bmult mode_NE (i64 1) (B754_zero s)) neg_zero = (B754_zero s : f64)) as -> by (apply B2SF_inj; destruct s; vm_compute; reflexivity). destruct s; guards; fin.
  Qed.
  Lemma seenr6 s : eval_parametric O (-6) [i64 (-1); i64 1; i64 0; i64 0] (B754_zero s) = Some (B754_infinity s).
  Proof.
    unfold eval_parametric; cbn [nth_error]; cbv zeta; cbn [f_lit f_neg f_abs f_add f_sub f_mul f_div f_lt f_ge f_max f_pow f_log10 f_exp f64_ops].
    assert (Bminus mode_NE (B754_zero s) (i64 0) = (B754_zero s : f64)) as -> by (apply B2SF_inj; destruct s; vm_compute; reflexivity). destruct s; guards; fin.
  Qed.
  Lemma seen7 s : eval_parametric O 7 [i64 (-1); i64 1; i64 1; i64 0; i64 0] (B754_zero s) = Some (if s then zero else B754_infinity false).
  Proof.
    unfold eval_parametric; cbn [nth_error]; cbv zeta; cbn [f_lit f_neg f_abs f_add f_sub f_mul f_div f_lt f_ge f_max f_pow f_log10 f_exp f64_ops].
    rewrite recip_of_zero. assert (Bplus mode_NE (Bmult mode_NE (i64 1) (B754_infinity s)) (i64 0) = (B754_infinity s : f64)) as -> by (apply B2SF_inj; destruct s; vm_compute; reflexivity).
    destruct s; guards; fin.
  Qed.
  (** Type -3 divides by gamma unchecked. *)
  Lemma gamma_sign s : eval_parametric O (-3) [B754_zero s; i64 1; i64 0; i64 0] (i64 2) = Some (if s then zero else B754_infinity false).
  Proof.
    assert (V2 : exact (i64 2) = Fin 2) by (apply lit_int_exact; lia).
    assert (P : pow (i64 2) (B754_infinity s) = if s then zero else B754_infinity false).
    { apply value_inj. rewrite (proj1 L). unfold sv_pow. rewrite !plain_value, V2. cbn [value odd_integer]. rewrite Bool.andb_false_r.
      destruct s; cbn [exact ext_pow]; rewrite (Reqb_f (Rabs 2) 1) by (rewrite Rabs_pos_eq; lra); unfold Rltb; (destruct (Rlt_dec (Rabs 2) 1) as [A|A]; [rewrite Rabs_pos_eq in A; lra|]);
        cbn [result]; rewrite ?Reqb_t; reflexivity. }
    unfold eval_parametric; cbn [nth_error]; cbv zeta; cbn [f_lit f_neg f_abs f_add f_sub f_mul f_div f_lt f_ge f_max f_pow f_log10 f_exp f64_ops].
    assert (Bminus mode_NE (i64 2) (i64 0) = (i64 2)) as -> by (apply B2SF_inj; vm_compute; reflexivity).
    assert (Bdiv mode_NE (f64_cst L1) (B754_zero s) = (B754_infinity s : f64)) as -> by (apply B2SF_inj; destruct s; vm_compute; reflexivity).
    rewrite P. destruct s; guards; fin.
  Qed.
  Lemma seen type : In type [1; -1; -2; -4; -5; 6; -6; 7]%Z ->
    exists ps, option_map exact (eval_parametric O type ps zero) <> option_map exact (eval_parametric O type ps neg_zero).
  Proof.
    unfold zero, neg_zero. intros I. repeat destruct I as [<-|I]; try contradiction;
    eexists; (rewrite !seen1 || rewrite !seenr1 || rewrite !seenr2 || rewrite !seenr4 || rewrite !seenr5 || rewrite !seen6 || rewrite !seenr6 || rewrite !seen7); discriminate.
  Qed.
End Lib.
