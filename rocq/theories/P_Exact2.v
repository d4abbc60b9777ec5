(** Whole curves in binary64 are the curves of rounded exact arithmetic. *)
From Coq Require Import ZArith List Reals Lia Lra.
From Flocq Require Import Core Plus_error IEEE754.BinarySingleNaN.
From Verif Require Import M_Base M_F64 M_Curve M_CurveF64 M_CurveReal S_F64 S_Exact P_S15 P_F64 P_Exact.
Import ListNotations.
Open Scope R_scope.

Lemma exact_cst_f2r l m e : f64_cst l = f64_lit m e -> ext_lit l = Fin (F2R (Float radix2 m e)) -> exact (f64_cst l) = rounded (ext_lit l).
Proof. intros -> ->. apply exact_lit_of. Qed.
Lemma tol_quotient : f64_cst Ltol = Bdiv mode_NE (f64_lit 1 0) (f64_lit 10000 0).
Proof. apply B2SF_inj. vm_compute. reflexivity. Qed.
Lemma lit_int_exact z : (Z.abs z <= 2 ^ 53)%Z -> exact (f64_lit z 0) = Fin (IZR z).
Proof.
  intros H. destruct (f64_lit_exact z 0 H ltac:(lia)) as (E & F). rewrite exact_fin by exact F. rewrite E. cbn [bpow]. now rewrite Rmult_1_r.
Qed.
Lemma bpow0 : bpow radix2 0 = 1. Proof. reflexivity. Qed.
Lemma bpowh : bpow radix2 (-1) = / 2. Proof. reflexivity. Qed.
Lemma exact_cst l : exact (f64_cst l) = rounded (ext_lit l).
Proof.
  destruct l.
  - apply (exact_cst_f2r L0 0 0 eq_refl). unfold ext_lit. f_equal. unfold F2R; cbn [Fnum Fexp]. rewrite ?bpow0, ?bpowh. lra.
  - apply (exact_cst_f2r Lhalf 1 (-1) eq_refl). unfold ext_lit. f_equal. unfold F2R; cbn [Fnum Fexp]. rewrite ?bpow0, ?bpowh. lra.
  - apply (exact_cst_f2r L1 1 0 eq_refl). unfold ext_lit. f_equal. unfold F2R; cbn [Fnum Fexp]. rewrite ?bpow0, ?bpowh. lra.
  - apply (exact_cst_f2r L2 2 0 eq_refl). unfold ext_lit. f_equal. unfold F2R; cbn [Fnum Fexp]. rewrite ?bpow0, ?bpowh. lra.
  - apply (exact_cst_f2r L10 10 0 eq_refl). unfold ext_lit. f_equal. unfold F2R; cbn [Fnum Fexp]. rewrite ?bpow0, ?bpowh. lra.
  - rewrite tol_quotient. rewrite exact_div.
    + rewrite !lit_int_exact by (vm_compute; discriminate). unfold ext_lit. cbn [ext_div]. rewrite Reqb_f by lra. do 2 f_equal. lra.
    + intros H. apply (f_equal exact) in H. rewrite lit_int_exact in H by (vm_compute; discriminate). cbn in H. injection H. lra.
  - apply (exact_cst_f2r Lplus_inf 10000000000000000000000 0 eq_refl). unfold ext_lit. f_equal. unfold F2R; cbn [Fnum Fexp]. rewrite ?bpow0, ?bpowh. lra.
Qed.

(** When a sum or difference is -0. *)
Lemma fin_nz x : is_finite x = true -> x = neg_zero -> B2R x = 0 /\ Bsign x = true. Proof. now intros _ ->. Qed.
Lemma plus_nz x y : y <> neg_zero -> Bplus mode_NE x y <> neg_zero.
Proof.
  intros NY E. destruct (is_finite x) eqn:F, (is_finite y) eqn:F'.
  - pose proof (Bplus_correct 53 1024 prec53 emax53 mode_NE x y F F') as H. rewrite E in H.
    destruct (Rlt_bool _ _); [|destruct H as (H & _); discriminate H]. destruct H as (B & _ & S).
    cbn [B2R neg_zero] in B. assert (Z : B2R x + B2R y = 0).
    { destruct (Req_dec (B2R x + B2R y) 0) as [Z|Z]; [exact Z|]. exfalso.
      refine (round_plus_neq_0 radix2 (SpecFloat.fexp 53 1024) (round_mode mode_NE) (B2R x) (B2R y) _ _ Z _).
      - apply generic_format_B2R. - apply generic_format_B2R. - now symmetry. }
    rewrite Z, Rcompare_Eq in S by reflexivity. cbn [Bsign neg_zero] in S. symmetry in S. apply andb_prop in S as (S1 & S2).
    destruct y as [[|]|s'| |[|] m' e' H']; try discriminate; [now destruct NY|].
    destruct x as [[|]|s| |[|] m e H0]; try discriminate.
    pose proof (sign_R true m' e' H') as G. pose proof (sign_R true m e H0) as G'. cbn zeta in G, G'. lra.
  - destruct y as [s'|s'| |s' m' e' H']; try discriminate; destruct x as [s|s| |s m e H]; discriminate.
  - destruct x as [s|s| |s m e H]; try discriminate; destruct y as [s'|s'| |s' m' e' H']; discriminate.
  - destruct x as [s|[|]| |s m e H]; try discriminate; destruct y as [s'|[|]| |s' m' e' H']; discriminate.
Qed.
Lemma minus_opp x y : is_nan y = false -> Bminus mode_NE x y = Bplus mode_NE x (Bopp y : f64).
Proof. intros N. destruct x as [[|]|[|]| |s m e H], y as [[|]|[|]| |[|] m' e' H']; try discriminate; reflexivity. Qed.
Lemma plus_nz' x y : x <> neg_zero -> Bplus mode_NE x y <> neg_zero.
Proof.
  intros NY E. destruct (is_finite x) eqn:F, (is_finite y) eqn:F'.
  - pose proof (Bplus_correct 53 1024 prec53 emax53 mode_NE x y F F') as H. rewrite E in H.
    destruct (Rlt_bool _ _); [|destruct H as (H & _); discriminate H]. destruct H as (B & _ & S).
    cbn [B2R neg_zero] in B. assert (Z : B2R x + B2R y = 0).
    { destruct (Req_dec (B2R x + B2R y) 0) as [Z|Z]; [exact Z|]. exfalso.
      refine (round_plus_neq_0 radix2 (SpecFloat.fexp 53 1024) (round_mode mode_NE) (B2R x) (B2R y) _ _ Z _).
      - apply generic_format_B2R. - apply generic_format_B2R. - now symmetry. }
    rewrite Z, Rcompare_Eq in S by reflexivity. cbn [Bsign neg_zero] in S. symmetry in S. apply andb_prop in S as (S1 & S2).
    destruct x as [[|]|s| |[|] m e H0]; try discriminate; [now destruct NY|].
    destruct y as [[|]|s'| |[|] m' e' H']; try discriminate.
    pose proof (sign_R true m' e' H') as G. pose proof (sign_R true m e H0) as G'. cbn zeta in G, G'. lra.
  - destruct y as [s'|s'| |s' m' e' H']; try discriminate; destruct x as [s|s| |s m e H]; discriminate.
  - destruct x as [s|s| |s m e H]; try discriminate; destruct y as [s'|s'| |s' m' e' H']; discriminate.
  - destruct x as [s|[|]| |s m e H]; try discriminate; destruct y as [s'|[|]| |s' m' e' H']; discriminate.
Qed.
Lemma minus_nz x y : x <> neg_zero \/ (is_nan y = false -> Bopp y <> neg_zero) -> Bminus mode_NE x y <> neg_zero.
Proof.
  intros H. destruct (is_nan y) eqn:N.
  - destruct y; try discriminate. destruct x as [[|]|[|]| |s m e H0]; discriminate.
  - rewrite minus_opp by exact N. destruct H as [H|H]; [now apply plus_nz'|apply plus_nz; now apply H].
Qed.
Lemma exact_nz x : exact x <> Fin 0 -> x <> neg_zero. Proof. now intros H ->. Qed.

Section Sim.
  Context (pow : f64 -> f64 -> f64) (lg ex : f64 -> f64) (HP : exact_pow pow) (HL : exact_log10 lg) (HE : exact_exp ex).
  Local Notation O := (f64_ops pow lg ex).
  Local Notation Q := round_ops.
  Lemma s_lit l : exact (f_lit O l) = f_lit Q l. Proof. apply exact_cst. Qed.
  Lemma s_neg x X : exact x = X -> exact (f_neg O x) = f_neg Q X. Proof. intros <-. apply exact_neg. Qed.
  Lemma s_abs x X : exact x = X -> exact (f_abs O x) = f_abs Q X. Proof. intros <-. apply exact_abs. Qed.
  Lemma s_add x y X Y : exact x = X -> exact y = Y -> exact (f_add O x y) = f_add Q X Y. Proof. intros <- <-. apply exact_add. Qed.
  Lemma s_sub x y X Y : exact x = X -> exact y = Y -> exact (f_sub O x y) = f_sub Q X Y. Proof. intros <- <-. apply exact_sub. Qed.
  Lemma s_mul x y X Y : exact x = X -> exact y = Y -> exact (f_mul O x y) = f_mul Q X Y. Proof. intros <- <-. apply exact_mul. Qed.
  Lemma s_div x y X Y : exact x = X -> exact y = Y -> y <> neg_zero -> exact (f_div O x y) = f_div Q X Y. Proof. intros <- <-. apply exact_div. Qed.
  Lemma s_max x y X Y : exact x = X -> exact y = Y -> exact (f_max O x y) = f_max Q X Y. Proof. intros <- <-. apply exact_max. Qed.
  Lemma s_pow x y X Y : exact x = X -> exact y = Y -> (x = neg_zero -> ext_lt (exact y) (Fin 0) = false) -> exact (f_pow O x y) = f_pow Q X Y.
  Proof. intros <- <-. apply HP. Qed.
  Lemma s_log x X : exact x = X -> exact (f_log10 O x) = f_log10 Q X. Proof. intros <-. apply HL. Qed.
  Lemma s_exp x X : exact x = X -> exact (f_exp O x) = f_exp Q X. Proof. intros <-. apply HE. Qed.
  Lemma s_lt x y X Y : exact x = X -> exact y = Y -> f_lt O x y = f_lt Q X Y. Proof. intros <- <-. apply exact_ltb. Qed.
  Lemma s_ge x y X Y : exact x = X -> exact y = Y -> f_ge O x y = f_ge Q X Y. Proof. intros <- <-. apply exact_geb. Qed.
  Lemma s_if (b B : bool) u v U V : b = B -> (b = true -> exact u = U) -> (b = false -> exact v = V) ->
    exact (if b then u else v) = (if B then U else V).
  Proof. intros <- A C. destruct b; auto. Qed.
  Lemma s_or b c B C : b = B -> c = C -> (b || c)%bool = (B || C)%bool. Proof. now intros -> ->. Qed.

  Lemma lit_nz l : f_lit O l <> neg_zero.
  Proof. destruct l; intros H; apply (f_equal B2SF) in H; vm_compute in H; discriminate H. Qed.
  Lemma nz_pow (x y : f64) : x <> neg_zero -> x = neg_zero -> ext_lt (exact y) (Fin 0) = false. Proof. intros H E. now destruct H. Qed.
  Lemma nz_add1 (x y : f64) : y <> neg_zero -> f_add O x y <> neg_zero. Proof. apply plus_nz. Qed.
  Lemma nz_add2 (x y : f64) : x <> neg_zero -> f_add O x y <> neg_zero. Proof. apply plus_nz'. Qed.
  Lemma nz_sub (x y : f64) : x <> neg_zero -> f_sub O x y <> neg_zero. Proof. intros H. apply minus_nz. now left. Qed.
  Lemma nz_log x : f_log10 O x <> neg_zero. Proof. apply HL. Qed.
  Lemma nz_gt0 (x : f64) : f_lt O (f_lit O L0) x = true -> x <> neg_zero. Proof. intros H ->. discriminate H. Qed.

  Ltac nz := first [ assumption | apply lit_nz | apply nz_log | eapply nz_gt0; eassumption
    | apply nz_sub; nz | apply nz_add1; nz | apply nz_add2; nz ].
  Ltac sim := intros; first
    [ reflexivity | assumption | apply s_lit
    | apply s_if; sim | apply s_or; sim
    | apply s_lt; sim | apply s_ge; sim
    | apply s_neg; sim | apply s_abs; sim | apply s_max; sim | apply s_log; sim | apply s_exp; sim
    | apply s_add; sim | apply s_sub; sim | apply s_mul; sim
    | apply s_div; [sim | sim | nz]
    | apply s_pow; [sim | sim | first [apply nz_pow; nz | idtac]]
    | idtac ].

  Lemma exact_fin_inv (x : f64) v : exact x = Fin v -> is_finite x = true /\ B2R x = v.
  Proof. destruct (exact_case x) as [(F & E)|[->|[->| ->]]]; try discriminate. rewrite E. intros H. split; [exact F|congruence]. Qed.
  Lemma exp_cases x : ex x = B754_nan \/ ex x = B754_infinity false \/ (is_finite (ex x) = true /\ 0 <= B2R (ex x)).
  Proof.
    pose proof (HE x) as H. destruct (exact x) as [v| | |]; cbn [ext_exp] in H.
    - cbn [rounded] in H. rewrite nearest_rne in H. assert (P : 0 <= rne (exp v)) by (apply rne_ge; [apply fmt0|left; apply exp_pos]).
      destruct (Rlt_bool _ _).
      + right; right. apply exact_fin_inv in H as (F & V). split; [exact F|lra].
      + rewrite Rlt_bool_false in H by (left; apply exp_pos). right; left. destruct (ex x) as [s|[|]| |s m e B]; try discriminate H; reflexivity.
    - right; left. cbn in H. destruct (ex x) as [s|[|]| |s m e B]; try discriminate H; reflexivity.
    - rewrite rounded_0 in H. right; right. apply exact_fin_inv in H as (F & V). split; [exact F|lra].
    - left. cbn in H. destruct (ex x) as [s|[|]| |s m e B]; try discriminate H; reflexivity.
  Qed.
  Lemma fmt_lit m e : (Z.abs m <= 2 ^ 53)%Z -> (-1074 <= e <= 900)%Z -> fmt (IZR m * bpow radix2 e).
  Proof. intros M E. destruct (f64_lit_exact m e M E) as (V & F). rewrite <- V. apply generic_format_B2R. Qed.
  Lemma fmt_one : fmt 1. Proof. replace 1 with (IZR 1 * bpow radix2 0) by (cbn; lra). apply fmt_lit; lia. Qed.
  Lemma fmt_half' : fmt (/ 2). Proof. replace (/ 2) with (IZR 1 * bpow radix2 (-1)) by (cbn; lra). apply fmt_lit; lia. Qed.
  Lemma top_big : 2 < top. Proof. apply (bpow_lt radix2 1 1024). lia. Qed.
  Lemma rounded_small v : Rabs (nearest v) < top -> rounded (Fin v) = Fin (nearest v).
  Proof. intros H. cbn [rounded]. now rewrite Rlt_bool_true. Qed.
  Lemma exact_one : exact (f64_cst L1) = Fin 1.
  Proof. destruct cst1 as (V & F). now rewrite exact_fin, V. Qed.
  Lemma exact_half : exact (f64_cst Lhalf) = Fin (/ 2).
  Proof.
    destruct (cst_val Lhalf 1 (-1) eq_refl ltac:(lia) ltac:(lia)) as (E & F). rewrite exact_fin by exact F. rewrite E. f_equal. rewrite bpowh. lra.
  Qed.
  (** The sigmoid stays within half of 0. *)
  Lemma base_cases k t : let s := sigmoid_base O k t in exact s = NaN \/ exists v, exact s = Fin v /\ - / 2 <= v <= / 2.
  Proof.
    cbn zeta. unfold sigmoid_base. cbn [f_sub f_div f_add f_exp f_lit f64_ops]. set (x := f_mul _ _ _). pose proof top_big as TB.
    assert (HALF : forall u, exact u = Fin 0 \/ (exists v, exact u = Fin v /\ 0 <= v <= 1) ->
      exists v, exact (Bminus mode_NE u (f64_cst Lhalf)) = Fin v /\ - / 2 <= v <= / 2).
    { intros u U. assert (U' : exists v, exact u = Fin v /\ 0 <= v <= 1) by (destruct U as [U|U]; [exists 0; split; [exact U|lra]|exact U]).
      destruct U' as (v & Ev & B). rewrite exact_sub, Ev, exact_half. unfold ext_sub. cbn [ext_neg ext_add].
      assert (L : - / 2 <= nearest (v + - / 2)) by (rewrite nearest_rne; apply rne_ge; [apply generic_format_opp, fmt_half'|lra]).
      assert (L' : nearest (v + - / 2) <= / 2) by (rewrite nearest_rne; apply rne_le; [apply fmt_half'|lra]).
      rewrite rounded_small by (apply Rabs_def1; lra). eexists. split; [reflexivity|lra]. }
    destruct (exp_cases x) as [E|[E|(F & P)]].
    - left. rewrite E. rewrite exact_sub, exact_div, exact_add, exact_one by (rewrite ?E; discriminate). reflexivity.
    - right. apply HALF. left. rewrite E. rewrite exact_div by (intros H; apply (f_equal B2SF) in H; vm_compute in H; discriminate H).
      rewrite exact_add, exact_one. cbn [exact ext_add rounded]. cbn [ext_div]. apply rounded_0.
    - right. apply HALF. right. assert (A : exact (Bplus mode_NE (f64_cst L1) (ex x)) = PInf \/
        exists v, exact (Bplus mode_NE (f64_cst L1) (ex x)) = Fin v /\ 1 <= v).
      { rewrite exact_add, exact_one, (exact_fin (ex x)) by exact F. cbn [ext_add rounded].
        assert (1 <= nearest (1 + B2R (ex x))) by (rewrite nearest_rne; apply rne_ge; [apply fmt_one|lra]).
        destruct (Rlt_bool _ top); [right; eexists; split; [reflexivity|lra]|]. left. now destruct (Rlt_bool_spec (1 + B2R (ex x)) 0); [lra|]. }
      rewrite exact_div, exact_one.
      + destruct A as [A|(v & A & B)]; rewrite A; cbn [ext_div].
        * exists 0. split; [apply rounded_0|lra].
        * rewrite Reqb_f by lra. assert (0 <= 1 / v <= 1).
          { split; [apply Rlt_le, Rdiv_lt_0_compat; lra|]. apply (Rmult_le_reg_r v); [lra|]. unfold Rdiv. rewrite Rmult_assoc, Rinv_l by lra. lra. }
          assert (0 <= nearest (1 / v)) by (rewrite nearest_rne; apply rne_ge; [apply fmt0|lra]).
          assert (nearest (1 / v) <= 1) by (rewrite nearest_rne; apply rne_le; [apply fmt_one|lra]).
          rewrite rounded_small by (apply Rabs_def1; lra). eexists. split; [reflexivity|lra].
      + apply exact_nz. destruct A as [A|(v & A & B)]; rewrite A; [discriminate|]. intros Z. injection Z. lra.
  Qed.
  Lemma base_nz k t : sigmoid_base O k t <> neg_zero.
  Proof.
    unfold sigmoid_base. cbn [f_sub f64_ops]. apply minus_nz. right. intros _ H. apply (f_equal B2SF) in H. vm_compute in H. discriminate H.
  Qed.
  Lemma correction_nz k : f_div O (f_lit O Lhalf) (sigmoid_base O k (f_lit O L1)) <> neg_zero.
  Proof.
    apply exact_nz. pose proof (base_cases k (f_lit O L1)) as C. pose proof (base_nz k (f_lit O L1)) as NZ. cbn zeta in C.
    set (s := sigmoid_base O k (f_lit O L1)) in *. cbn [f_div f_lit f64_ops]. rewrite exact_div by exact NZ. rewrite exact_half.
    destruct C as [->|(v & -> & B)]; cbn [ext_div]; [discriminate|].
    unfold Reqb. destruct (Req_EM_T v 0) as [->|NV].
    - destruct (Req_EM_T (/ 2) 0); [discriminate|]. now rewrite inf_of_pos by lra.
    - cbn [rounded]. destruct (Rlt_bool _ _); [|destruct (Rlt_bool _ _); discriminate]. rewrite nearest_rne. intros H0. assert (H : rne (/ 2 / v) = 0) by congruence. clear H0. set (w := / 2 / v) in *.
      destruct (Rlt_le_dec v 0) as [S|S].
      + assert (rne w <= - (1)); [|lra]. apply rne_le; [apply generic_format_opp, fmt_one|].
        apply Ropp_le_cancel. rewrite Ropp_involutive. apply (Rmult_le_reg_r (- v)); [lra|]. unfold w. replace (- (/ 2 / v) * - v) with (/ 2) by (field; lra). lra.
      + assert (1 <= rne w); [|lra]. apply rne_ge; [apply fmt_one|].
        apply (Rmult_le_reg_r v); [lra|]. unfold w. replace (/ 2 / v * v) with (/ 2) by (field; lra). lra.
  Qed.
  Lemma s_base k t K T : exact k = K -> exact t = T -> exact (sigmoid_base O k t) = sigmoid_base Q K T.
  Proof. intros. unfold sigmoid_base. sim. Qed.
  Lemma s_inv_base k t K T : exact k = K -> exact t = T -> k <> neg_zero -> exact (inverted_sigmoid_base O k t) = inverted_sigmoid_base Q K T.
  Proof. intros. unfold inverted_sigmoid_base. sim. Qed.
  Lemma s_factory k t : exact (sigmoid_factory O k t) = sigmoid_factory Q (exact k) (exact t).
  Proof.
    unfold sigmoid_factory. cbv zeta. apply s_add; [|sim]. apply s_mul; [apply s_div; [sim|apply s_base; sim|apply base_nz]|apply s_base; sim].
  Qed.
  Lemma s_inv_factory k t : k <> neg_zero -> exact (inverted_sigmoid_factory O k t) = inverted_sigmoid_factory Q (exact k) (exact t).
  Proof.
    intros NK. unfold inverted_sigmoid_factory. cbv zeta. apply s_div; [|sim|nz]. apply s_add; [|sim]. apply s_inv_base; [reflexivity| |exact NK].
    apply s_div; [sim| |apply correction_nz]. apply s_div; [sim|apply s_base; sim|apply base_nz].
  Qed.

  (** A quotient 1/g with g at least the tolerance is not negative. *)
  Lemma recip_not_neg (g : f64) : f_lt O g (f_lit O Ltol) = false -> ext_lt (exact (f_div O (f_lit O L1) g)) (Fin 0) = false.
  Proof.
    intros H. cbn [f_lt f_lit f64_ops f_div] in *. rewrite exact_ltb in H. destruct cst_tol as (VT & FT). rewrite (exact_fin (f64_cst Ltol)), VT in H by exact FT.
    assert (NG : g <> neg_zero).
    { intros ->. cbn [exact neg_zero ext_lt B2R] in H. unfold Rltb in H. destruct (Rlt_dec _ _); [discriminate|]. lra. }
    rewrite exact_div, exact_one by exact NG. destruct (exact g) as [v| | |]; cbn [ext_lt ext_div] in *.
    - unfold Rltb in H. destruct (Rlt_dec _ _) as [|L]; [discriminate|]. rewrite Reqb_f by lra. cbn [rounded].
      assert (P : 0 < 1 / v) by (apply Rdiv_lt_0_compat; lra).
      assert (0 <= nearest (1 / v)) by (rewrite nearest_rne; apply rne_ge; [apply fmt0|lra]).
      destruct (Rlt_bool _ _); cbn [ext_lt]; [unfold Rltb; destruct (Rlt_dec _ _); [lra|reflexivity]|]. now rewrite Rlt_bool_false by lra.
    - rewrite rounded_0. cbn [ext_lt]. unfold Rltb. destruct (Rlt_dec 0 0); [lra|reflexivity].
    - discriminate.
    - reflexivity.
  Qed.

  Ltac go ps n := match n with
    | O => idtac
    | S ?m => destruct ps as [|?x ps]; [reflexivity|]; cbn [nth_error map]; first [has_none; go ps m | idtac]
    end
  with has_none := match goal with |- context [@None] => idtac end.
  Ltac fa H := match type of H with
    | Forall _ (_ :: _) => let A := fresh "N" in apply Forall_cons_iff in H as (A & H); fa H
    | _ => idtac end.
  Lemma simulation type ps r : Forall (fun p => p <> neg_zero) ps -> r <> neg_zero ->
    option_map exact (eval_parametric O type ps r) = eval_parametric Q type (map exact ps) (exact r).
  Proof.
    intros N NR. unfold eval_parametric.
    destruct type as [|p|p]; [cbn [option_map]; f_equal; sim|..];
    repeat (destruct p as [p|p|]; try (cbn [option_map]; f_equal; apply s_lit));
    go ps 7%nat; fa N; cbn [option_map]; f_equal; cbv zeta.
    all: try (apply s_factory || (apply s_inv_factory; assumption)).
    all: sim.
    intros _. apply Bool.orb_false_iff in H as (H & _). apply Bool.orb_false_iff in H as (H & _). now apply recip_not_neg.
  Qed.
End Sim.
