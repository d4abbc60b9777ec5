(** Binary64 operations are the exact ones, rounded, with the sign of zero. *)
From Coq Require Import ZArith List Reals Lia Lra.
From Flocq Require Import Core IEEE754.BinarySingleNaN.
From Verif Require Import M_Base M_F64 M_Curve M_CurveF64 M_CurveReal S_F64 S_Exact S_Signed S_Pow P_S15 P_F64 P_Curve3 P_CurveErr P_Ideal P_Exact P_Exact2 P_Exact3 P_Pow.
Import ListNotations.
Open Scope R_scope.

Lemma plain_value x : plain (value x) = exact x.
Proof. now destruct x as [s|[|]| |s m e H]. Qed.
Lemma minus_value x : is_nan x = false -> minus (value x) = Bsign x.
Proof.
  destruct x as [s|s| |s m e H]; try discriminate; try reflexivity. intros _. cbn [value minus Bsign]. pose proof (sign_R s m e H) as S. cbn zeta in S.
  unfold Rltb. destruct (Rlt_dec _ 0) as [L|L], s; try reflexivity; lra.
Qed.
(** No two binary64 numbers have the same value. *)
Lemma value_inj x y : value x = value y -> x = y.
Proof.
  intros H. destruct x as [s|s| |s m e B], y as [s'|s'| |s' m' e' B']; try discriminate H; try reflexivity; try (cbn [value] in H; congruence).
  cbn [value] in H. assert (E : B2R (B754_finite s m e B : f64) = B2R (B754_finite s' m' e' B' : f64)) by congruence.
  apply B2R_Bsign_inj; try reflexivity; [exact E|]. pose proof (sign_R s m e B) as S. pose proof (sign_R s' m' e' B') as S'. cbn zeta in S, S'. cbn [Bsign].
  destruct s, s'; try reflexivity; lra.
Qed.

(** From the exact value and the sign of a zero to the value. *)
Lemma value_result (z : f64) s e : exact z = rounded e -> (e = PInf -> s = false) -> (e = NInf -> s = true) ->
  (forall b v, z = B754_zero b -> e = Fin v -> b = if Reqb v 0 then s else Rltb v 0) -> value z = result s e.
Proof.
  intros E P N Z. destruct e as [v| | |]; cbn [result].
  - unfold Reqb at 1. destruct (Req_EM_T v 0) as [->|NV].
    + rewrite rounded_0 in E. apply exact_zero_iff in E as (b & ->).
      cbn [value]. f_equal. specialize (Z b 0 eq_refl eq_refl). now rewrite Reqb_t in Z.
    + cbn [rounded] in E. destruct (Rlt_bool _ _).
      * unfold Reqb. destruct (Req_EM_T (nearest v) 0) as [E0|N0].
        -- rewrite E0 in E. apply exact_zero_iff in E as (b & ->). cbn [value]. f_equal. specialize (Z b v eq_refl eq_refl). now rewrite Reqb_f in Z.
        -- apply exact_fin_inv in E as (F & V). destruct z as [b|b| |b m ex B]; try discriminate F; [now rewrite <- V in N0|]. cbn [value]. now rewrite V.
      * unfold Rltb. destruct (Rlt_bool_spec v 0), (Rlt_dec v 0); try lra; (destruct z as [b|[|]| |b m ex B]; try discriminate E; reflexivity).
  - rewrite P by reflexivity. destruct z as [b|[|]| |b m ex B]; try discriminate E; reflexivity.
  - rewrite N by reflexivity. destruct z as [b|[|]| |b m ex B]; try discriminate E; reflexivity.
  - destruct z as [b|[|]| |b m ex B]; try discriminate E; reflexivity.
Qed.

Lemma Rltb_sign s m e H : Rltb (B2R (B754_finite s m e H : f64)) 0 = s.
Proof. exact (minus_value (B754_finite s m e H) eq_refl). Qed.
Lemma value_neg x : value (Bopp x) = sv_neg (value x).
Proof. destruct x as [s|s| |s m e H]; try reflexivity. cbn [value sv_neg]. rewrite <- B2R_Bopp. reflexivity. Qed.
Lemma value_abs x : value (Babs x) = sv_abs (value x).
Proof. destruct x as [s|s| |s m e H]; try reflexivity. cbn [value sv_abs]. rewrite <- B2R_Babs. reflexivity. Qed.

Lemma zero_sum_sign (x y : f64) b : is_finite x = true -> is_finite y = true -> Bplus mode_NE x y = B754_zero b ->
  b = if Reqb (B2R x + B2R y) 0 then Bsign x && Bsign y else Rltb (B2R x + B2R y) 0.
Proof.
  intros FX FY E. pose proof (Bplus_correct 53 1024 prec53 emax53 mode_NE x y FX FY) as H. cbv zeta in H. rewrite E in H.
  destruct (Rlt_bool _ _).
  - destruct H as (_ & _ & H). cbn [Bsign] in H. rewrite H. unfold Reqb, Rltb. destruct (Rcompare_spec (B2R x + B2R y) 0); destruct (Req_EM_T _ 0); try lra; try reflexivity;
      destruct (Rlt_dec _ 0); try lra; reflexivity.
  - destruct H as (H & _). discriminate H.
Qed.
Lemma value_add x y : value (Bplus mode_NE x y) = sv_add (value x) (value y).
Proof.
  assert (R : forall s, (ext_add (exact x) (exact y) = PInf -> s = false) -> (ext_add (exact x) (exact y) = NInf -> s = true) ->
    (is_finite x = true -> is_finite y = true -> s = Bsign x && Bsign y) ->
    value (Bplus mode_NE x y) = result s (ext_add (plain (value x)) (plain (value y)))).
  { intros s P N Z. rewrite !plain_value. apply value_result; [apply exact_add|exact P|exact N|]. intros b v E EV.
    destruct (exact_case x) as [(F & EX)|[->|[->| ->]]], (exact_case y) as [(F' & EY)|[->|[->| ->]]]; rewrite ?EX, ?EY in EV; try discriminate EV.
    cbn [ext_add] in EV. assert (V : v = B2R x + B2R y) by congruence. rewrite V, (Z F F'). now apply zero_sum_sign. }
  unfold sv_add. destruct x as [s|s| |s m e H], y as [s'|s'| |s' m' e' H']; cbn [value]; try reflexivity;
    try (apply R; cbn [exact ext_add]; try destruct s; try destruct s'; try discriminate; reflexivity).
  all: apply R; try discriminate; intros _ _; cbn [minus Bsign]; rewrite ?Rltb_sign; reflexivity.
Qed.
Lemma Bminus_opp (x y : f64) : Bminus mode_NE x y = Bplus mode_NE x (Bopp y).
Proof.
  apply value_inj. destruct x as [s|s| |s m e H], y as [s'|s'| |s' m' e' H']; try reflexivity; cbn [Bminus Bplus Bopp value]; try (now destruct s, s').
Qed.
Lemma value_sub x y : value (Bminus mode_NE x y) = sv_add (value x) (sv_neg (value y)).
Proof. now rewrite Bminus_opp, value_add, value_neg. Qed.

Lemma mul_sign_R (x y : f64) : is_finite x = true -> is_finite y = true -> B2R x * B2R y <> 0 -> Rltb (B2R x * B2R y) 0 = xorb (Bsign x) (Bsign y).
Proof.
  intros F F' NZ. destruct x as [s|s| |s m e H], y as [s'|s'| |s' m' e' H']; try discriminate; try (exfalso; apply NZ; cbn [B2R]; ring).
  pose proof (sign_R s m e H) as S. pose proof (sign_R s' m' e' H') as S'. cbn zeta in S, S'. cbn [Bsign]. unfold Rltb.
  set (v := B2R (B754_finite s m e H)) in *. set (w := B2R (B754_finite s' m' e' H')) in *. clearbody v w.
  destruct s, s'; cbn [xorb]; destruct (Rlt_dec _ 0) as [L|L]; try reflexivity; exfalso.
  - assert (0 < (- v) * (- w)) by (apply Rmult_lt_0_compat; lra). lra.
  - assert (0 < (- v) * w) by (apply Rmult_lt_0_compat; lra). lra.
  - assert (0 < v * (- w)) by (apply Rmult_lt_0_compat; lra). lra.
  - assert (0 < v * w) by (apply Rmult_lt_0_compat; lra). lra.
Qed.
Lemma value_mul x y : value (Bmult mode_NE x y) = sv_mul (value x) (value y).
Proof.
  unfold sv_mul. destruct (is_nan x) eqn:NX; [destruct x; try discriminate; now destruct y|].
  destruct (is_nan y) eqn:NY; [destruct y; try discriminate; destruct x as [|[|]| |]; try discriminate; reflexivity|].
  rewrite !minus_value, !plain_value by assumption. apply value_result; [apply exact_mul|..].
  - intros E. pose proof (exact_mul x y) as M. rewrite E in M. destruct x as [s|s| |s m e H], y as [s'|s'| |s' m' e' H']; try discriminate; cbn [Bmult exact Bsign] in *; try discriminate M;
      try (now destruct (xorb s s')).
  - intros E. pose proof (exact_mul x y) as M. rewrite E in M. destruct x as [s|s| |s m e H], y as [s'|s'| |s' m' e' H']; try discriminate; cbn [Bmult exact Bsign] in *; try discriminate M;
      try (now destruct (xorb s s')).
  - intros b v E EV.
    assert (F : is_finite x = true /\ is_finite y = true).
    { destruct x as [s|s| |s m e H], y as [s'|s'| |s' m' e' H']; try discriminate; try (split; reflexivity); cbn [Bmult] in E; discriminate E. }
    destruct F as (F & F'). rewrite (exact_fin x), (exact_fin y) in EV by assumption. cbn [ext_mul] in EV. assert (V : v = B2R x * B2R y) by congruence.
    pose proof (Bmult_correct 53 1024 prec53 emax53 mode_NE x y) as H. cbv zeta in H. rewrite E in H. destruct (Rlt_bool _ _); [|discriminate H].
    destruct H as (_ & _ & H). cbn [Bsign is_nan] in H. rewrite (H eq_refl). unfold Reqb. destruct (Req_EM_T v 0) as [|NV]; [reflexivity|]. subst v. symmetry. now apply mul_sign_R.
Qed.
Lemma div_sign_R (x y : f64) : is_finite x = true -> is_finite y = true -> B2R y <> 0 -> B2R x / B2R y <> 0 -> Rltb (B2R x / B2R y) 0 = xorb (Bsign x) (Bsign y).
Proof.
  intros F F' NY NZ. destruct x as [s|s| |s m e H], y as [s'|s'| |s' m' e' H']; try discriminate; try (now destruct NY); try (exfalso; apply NZ; cbn [B2R]; unfold Rdiv; ring).
  pose proof (sign_R s m e H) as S. pose proof (sign_R s' m' e' H') as S'. cbn zeta in S, S'. cbn [Bsign]. unfold Rltb.
  set (v := B2R (B754_finite s m e H)) in *. set (w := B2R (B754_finite s' m' e' H')) in *. clearbody v w.
  destruct s, s'; cbn [xorb]; destruct (Rlt_dec _ 0) as [L|L]; try reflexivity; exfalso.
  - assert (0 < (- v) / (- w)) by (apply Rdiv_lt_0_compat; lra). replace (- v / - w) with (v / w) in H0 by (field; lra). lra.
  - assert (0 < (- v) / w) by (apply Rdiv_lt_0_compat; lra). replace (- v / w) with (- (v / w)) in H0 by (field; lra). lra.
  - assert (0 < v / (- w)) by (apply Rdiv_lt_0_compat; lra). replace (v / - w) with (- (v / w)) in H0 by (field; lra). lra.
  - assert (0 < v / w) by (apply Rdiv_lt_0_compat; lra). lra.
Qed.
Lemma value_div x y : value (Bdiv mode_NE x y) = sv_div (value x) (value y).
Proof.
  unfold sv_div. destruct (is_nan x) eqn:NX; [destruct x; try discriminate; now destruct y|].
  destruct (is_nan y) eqn:NY; [destruct y; try discriminate; destruct x as [|[|]| |]; try discriminate; reflexivity|].
  rewrite !minus_value, !plain_value by assumption.
  destruct y as [s'|s'| |s' m' e' H']; try discriminate NY.
  - (* zero *) cbn [Bsign exact]. change (B2R (B754_zero s' : f64)) with 0. destruct x as [s|s| |s m e H]; try discriminate NX; cbn [Bdiv value exact ext_div Bsign].
    + cbn [B2R]. now rewrite !Reqb_t.
    + destruct s; cbn [ext_div]; unfold Rltb; (destruct (Rlt_dec 0 0); [lra|reflexivity]).
    + rewrite Reqb_t. pose proof (sign_R s m e H) as S. cbn zeta in S. set (v := B2R (B754_finite s m e H)) in *. clearbody v.
      unfold inf_of, Rltb. rewrite (Reqb_f v 0) by (destruct s; lra). now destruct (Rlt_dec v 0).
  - (* infinity *) destruct x as [s|s| |s m e H]; try discriminate NX; cbn [Bdiv value exact Bsign]; destruct s'; cbn [ext_div result]; rewrite ?Reqb_t; try destruct s; reflexivity.
  - destruct (exact_case x) as [(F & E)|[->|[->| ->]]]; [| |
      cbn [Bdiv value exact ext_div Bsign]; rewrite Rltb_sign; destruct s'; reflexivity |
      cbn [Bdiv value exact ext_div Bsign]; rewrite Rltb_sign; destruct s'; reflexivity ]; [|discriminate NX].
    set (y := B754_finite s' m' e' H') in *. assert (NZ : B2R y <> 0) by (pose proof (sign_R s' m' e' H') as S; cbn zeta in S; fold y in S; destruct s'; lra).
    assert (EV : ext_div (exact x) (exact y) = Fin (B2R x / B2R y)) by (rewrite E; change (exact y) with (Fin (B2R y)); cbn [ext_div]; now rewrite Reqb_f).
    apply value_result; [apply exact_div; discriminate|rewrite EV; discriminate|rewrite EV; discriminate|].
    intros b v EB V. rewrite EV in V. assert (VV : v = B2R x / B2R y) by congruence. 
    pose proof (Bdiv_correct 53 1024 prec53 emax53 mode_NE x y NZ) as H. cbv zeta in H. rewrite EB in H. destruct (Rlt_bool _ _); [|discriminate H].
    destruct H as (_ & _ & H). cbn [Bsign is_nan] in H. rewrite (H eq_refl). unfold Reqb. destruct (Req_EM_T v 0) as [|NV]; [reflexivity|]. subst v. symmetry. now apply div_sign_R.
Qed.
Lemma value_max x y : value (f64_max x y) = sv_max (value x) (value y).
Proof.
  assert (G : is_nan x = false -> is_nan y = false -> f64_max x y = (if f64_ltb x y then y else x) /\
    sv_max (value x) (value y) = (if ext_lt (plain (value x)) (plain (value y)) then value y else value x)).
  { intros A B. destruct x as [s|s| |s m e H], y as [s'|s'| |s' m' e' H']; try discriminate; split; reflexivity. }
  destruct (is_nan x) eqn:A; [destruct x; try discriminate; reflexivity|].
  destruct (is_nan y) eqn:B; [destruct y; try discriminate; destruct x; try discriminate; reflexivity|].
  destruct (G eq_refl eq_refl) as (E1 & E2). rewrite E1, E2, !plain_value, exact_ltb. destruct (ext_lt (exact x) (exact y)); reflexivity.
Qed.
Lemma value_lit l : value (f64_cst l) = result false (ext_lit l).
Proof.
  apply value_result; [apply exact_cst|destruct l; discriminate|destruct l; discriminate|].
  intros b v E V. assert (B : B2SF (f64_cst l) = SpecFloat.S754_zero b) by now rewrite E. destruct l; vm_compute in B; try discriminate B.
  assert (v = 0) by (unfold ext_lit in V; congruence). subst v. rewrite Reqb_t. congruence.
Qed.

(** Curves commute with every map that commutes with the operations. *)
Section Hom.
  Context {F G : Type} (O : FOps F) (P : FOps G) (h : F -> G)
    (Hl : forall l, h (f_lit O l) = f_lit P l) (Hn : forall x, h (f_neg O x) = f_neg P (h x)) (Ha : forall x, h (f_abs O x) = f_abs P (h x))
    (Hadd : forall x y, h (f_add O x y) = f_add P (h x) (h y)) (Hsub : forall x y, h (f_sub O x y) = f_sub P (h x) (h y))
    (Hmul : forall x y, h (f_mul O x y) = f_mul P (h x) (h y)) (Hdiv : forall x y, h (f_div O x y) = f_div P (h x) (h y))
    (Hlt : forall x y, f_lt O x y = f_lt P (h x) (h y)) (Hge : forall x y, f_ge O x y = f_ge P (h x) (h y))
    (Hmax : forall x y, h (f_max O x y) = f_max P (h x) (h y)) (Hpow : forall x y, h (f_pow O x y) = f_pow P (h x) (h y))
    (Hlog : forall x, h (f_log10 O x) = f_log10 P (h x)) (Hexp : forall x, h (f_exp O x) = f_exp P (h x)).
  Lemma h_if (b : bool) x y : h (if b then x else y) = if b then h x else h y. Proof. now destruct b. Qed.
  Ltac push := repeat (rewrite ?h_if, ?Hl, ?Hn, ?Ha, ?Hadd, ?Hsub, ?Hmul, ?Hdiv, ?Hlt, ?Hge, ?Hmax, ?Hpow, ?Hlog, ?Hexp).
  Ltac go ps n := match n with
    | O => idtac
    | S ?m => destruct ps as [|?x ps]; [reflexivity|]; cbn [nth_error map]; first [has_none; go ps m | idtac]
    end
  with has_none := match goal with |- context [@None] => idtac end.
  Lemma curves_commute type ps r : option_map h (eval_parametric O type ps r) = eval_parametric P type (map h ps) (h r).
  Proof.
    unfold eval_parametric, sigmoid_factory, inverted_sigmoid_factory, inverted_sigmoid_base, sigmoid_base.
    destruct type as [|p|p]; [cbn [option_map]; f_equal; apply Hl|..];
    repeat (destruct p as [p|p|]; try (cbn [option_map]; f_equal; apply Hl));
    go ps 7%nat; cbn [option_map]; f_equal; cbv zeta; push; reflexivity.
  Qed.
End Hom.
Lemma signed_simulation pow lg ex : signed_library pow lg ex -> forall type params r,
  option_map value (eval_parametric (f64_ops pow lg ex) type params r) = eval_parametric signed_ops type (map value params) (value r).
Proof.
  intros (HP & HL & HE) type params r. apply curves_commute.
  - exact value_lit.
  - exact value_neg.
  - exact value_abs.
  - exact value_add.
  - exact value_sub.
  - exact value_mul.
  - exact value_div.
  - intros x y. cbn [f_lt f64_ops signed_ops]. rewrite !plain_value. apply exact_ltb.
  - intros x y. cbn [f_ge f64_ops signed_ops]. rewrite !plain_value. apply exact_geb.
  - exact value_max.
  - exact HP.
  - exact HL.
  - exact HE.
Qed.

(** A library exists. *)
Definition of_sval (x : sval) : f64 := match x with SNaN => B754_nan | SInf s => B754_infinity s | SZero s => B754_zero s | SNum v => round64 v end.
Lemma value_of_result s e : value (of_sval (result s e)) = result s e.
Proof.
  destruct e as [v| | |]; try reflexivity. cbn [result]. destruct (Reqb v 0); [reflexivity|]. destruct (Rlt_bool_spec (Rabs (nearest v)) (bpow radix2 1024)) as [L|L]; [|reflexivity].
  unfold Reqb. destruct (Req_EM_T (nearest v) 0) as [|NZ]; [reflexivity|]. cbn [of_sval].
  pose proof (exact_of_ext (Fin (nearest v))) as E. cbn [of_ext] in E.
  assert (RV : nearest (nearest v) = nearest v).
  { apply round_generic; [apply valid_rnd_N|]. apply generic_format_round; [apply FLT_exp_valid; reflexivity|apply valid_rnd_N]. }
  rewrite rounded_small in E by (rewrite RV; exact L). rewrite RV in E. apply exact_fin_inv in E as (F & V).
  destruct (round64 (nearest v)) as [b|b| |b m ex B]; try discriminate F; [now rewrite <- V in NZ|]. cbn [value]. now rewrite V.
Qed.
Definition ieee_pow (x y : f64) : f64 := of_sval (sv_pow (value x) (value y)).
Definition ieee_log10 (x : f64) : f64 := of_sval (sv_log10 (value x)).
Definition ieee_exp (x : f64) : f64 := of_sval (sv_exp (value x)).
Lemma ieee_library : signed_library ieee_pow ieee_log10 ieee_exp.
Proof. split; [|split]; intros; apply value_of_result. Qed.
(** It is correctly rounded in the sense of C89. *)
Lemma plain_result s e : (e = PInf -> s = false) -> (e = NInf -> s = true) -> plain (result s e) = rounded e.
Proof.
  intros P N. rewrite <- (value_of_result s e) , plain_value. destruct e as [v| | |]; cbn [result]; try reflexivity.
  - unfold Reqb at 1. destruct (Req_EM_T v 0) as [->|NV]; [now rewrite rounded_0|]. cbn [rounded]. destruct (Rlt_bool_spec (Rabs (nearest v)) (bpow radix2 1024)) as [L|L].
    + pose proof (value_of_result s (Fin v)) as E. cbn [result] in E. rewrite Reqb_f, Rlt_bool_true in E by assumption. unfold Reqb in *.
      destruct (Req_EM_T (nearest v) 0) as [Z|Z]; [now rewrite Z|]. cbn [of_sval] in *. rewrite <- plain_value, E. reflexivity.
    + cbn [of_sval exact]. unfold Rltb. destruct (Rlt_dec v 0), (Rlt_bool_spec v 0); try lra; reflexivity.
  - now rewrite P.
  - now rewrite N.
Qed.
Lemma pow_ninf_inv x y : c_pow x y NInf -> x = NInf /\ exists n, (0 < 2 * n + 1)%Z /\ y = Fin (IZR (2 * n + 1)).
Proof. intros H. inversion H; subst; split; eauto. Qed.
Lemma signed_exact pow lg ex : signed_library pow lg ex -> exact_pow pow /\ exact_exp ex.
Proof.
  intros (HP & _ & HE). split.
  - intros x y NZ. rewrite <- plain_value, HP. unfold sv_pow. rewrite !plain_value. apply plain_result.
    + intros E. destruct (minus (value x)) eqn:M; [|reflexivity]. destruct (odd_integer (value y)) eqn:D; [|reflexivity]. exfalso.
      destruct y as [s'|s'| |s' m' e' H']; try discriminate D. cbn [value odd_integer] in D. set (b := B2R (B754_finite s' m' e' H')) in *.
      assert (NB : b <> 0) by (pose proof (sign_R s' m' e' H') as S; cbn zeta in S; fold b in S; destruct s'; lra).
      change (exact (B754_finite s' m' e' H')) with (Fin b) in *. destruct x as [s|s| |s m e H]; cbn [value minus] in M; try discriminate M.
      * subst s. specialize (NZ eq_refl). cbn [exact ext_pow B2R] in E. cbn [ext_lt] in NZ. rewrite (Reqb_f b) in E by exact NB. unfold Rltb in *.
        destruct (Rlt_dec 0 0); [lra|]. rewrite Reqb_t in E. destruct (Rlt_dec 0 b); [discriminate E|]. destruct (Rlt_dec b 0); [discriminate NZ|lra].
      * subst s. cbn [exact ext_pow] in E. rewrite (Reqb_f b) in E by exact NB. rewrite D in E. destruct (Rltb 0 b); discriminate E.
      * change (exact (B754_finite s m e H)) with (Fin (B2R (B754_finite s m e H))) in E. set (a := B2R (B754_finite s m e H)) in *.
        unfold Rltb in M. destruct (Rlt_dec a 0); [|discriminate M]. cbn [ext_pow] in E. rewrite (Reqb_f b), (Reqb_f a) in E by lra. unfold Rltb in E.
        destruct (Rlt_dec 0 a); [lra|]. destruct (is_integer b); [|discriminate E]. destruct (Z.even _); discriminate E.
    + intros E. apply pow_iff in E. apply pow_ninf_inv in E as (EX & n & NN & EY).
      destruct x as [|[|]| |]; try discriminate EX. cbn [value minus andb].
      destruct y as [s'|[|]| |s' m' e' H']; try discriminate EY; cbn [exact] in EY.
      * exfalso. assert (IZR (2 * n + 1) = 0) by (cbn [B2R] in EY; congruence). apply eq_IZR in H. lia.
      * assert (EV : B2R (B754_finite s' m' e' H' : f64) = IZR (2 * n + 1)) by congruence. cbn [value odd_integer]. rewrite EV.
        unfold is_integer. rewrite Int_part_IZR, Reqb_t, Z.odd_add, Z.odd_mul. reflexivity.
  - intros x. rewrite <- plain_value, HE. unfold sv_exp. rewrite plain_value. apply plain_result; [reflexivity|]. destruct (exact x); discriminate.
Qed.
