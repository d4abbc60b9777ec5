(** Proofs about the fall-back values of the curves (C99). *)
From Coq Require Import ZArith Reals Lia Lra Psatz List.
From Flocq Require Import Core Plus_error IEEE754.BinarySingleNaN.
From Verif Require Import M_Base M_F64 M_Curve M_CurveF64 S_Curve S_F64 S_Guard P_S15 P_F64 P_Curve3.
Open Scope R_scope.
Notation tol64 := (f64_cst Ltol).

(** No float lies between 1/10000 and the literal 0.0001. *)
Lemma tol_gap (p : f64) : finite p -> Rabs (B2R p) < B2R tol64 -> Rabs (B2R p) < tol.
Proof.
  intros F H. destruct (Rlt_dec (Rabs (B2R p)) tol) as [L|L]; [exact L|exfalso]. apply Rnot_lt_le in L. unfold tol in L.
  rewrite (proj1 cst_tol) in H. set (z := Rabs (B2R p)) in *.
  assert (ZF : generic_format radix2 (SpecFloat.fexp 53 1024) z) by (apply generic_format_abs, generic_format_B2R).
  assert (M : mag radix2 z = (-13)%Z :> Z).
  { apply mag_unique. unfold z. rewrite Rabs_Rabsolu. fold z. cbn [bpow Z.pow_pos]. split; cbn; lra. }
  unfold generic_format, F2R, cexp in ZF. cbn [Fnum Fexp] in ZF. rewrite M in ZF. set (k := Ztrunc _) in ZF. clearbody k.
  change (SpecFloat.fexp 53 1024 (-13)) with (-66)%Z in ZF.
  change (bpow radix2 (-66)) with (/ IZR (2 ^ 66)) in ZF.
  assert (P : 0 < IZR (2 ^ 66)) by (apply IZR_lt; reflexivity).
  assert (A : IZR k < 7378697629483821) by (apply Rmult_lt_reg_r with (/ IZR (2 ^ 66)); [now apply Rinv_0_lt_compat|]; lra).
  assert (B : 7378697629483820 < IZR k).
  { apply Rmult_lt_reg_r with (/ IZR (2 ^ 66)); [now apply Rinv_0_lt_compat|]. rewrite <- ZF.
    apply Rlt_le_trans with (/ 10000); [|exact L]. change (2 ^ 66)%Z with 73786976294838206464%Z. lra. }
  apply lt_IZR in A. apply lt_IZR in B. lia.
Qed.
Lemma tol_le : tol < B2R tol64.
Proof. rewrite (proj1 cst_tol). unfold tol. change (2 ^ 66)%Z with 73786976294838206464%Z. lra. Qed.
Lemma tiny_iff p : tiny p <-> f64_ltb (Babs p) tol64 = true.
Proof.
  rewrite ltb_iff, abs_ov, (ov_fin tol64) by apply cst_tol. unfold tiny. pose proof tol_le. split.
  - intros (F & L). rewrite ov_fin by exact F. split; [now destruct p|]. split; [apply fin_not_nan, cst_tol|lra].
  - intros (N & _ & L). assert (F : finite p).
    { unfold finite. destruct (is_finite p) eqn:E; [reflexivity|exfalso]. pose proof top_pos as T. pose proof (fin_bound tol64) as FB.
      destruct p as [s|s| |s m e B]; try discriminate. destruct s; cbn [ov] in L; rewrite ?Rabs_Ropp, Rabs_pos_eq in L by lra; lra. }
    split; [exact F|]. apply tol_gap; [exact F|]. now rewrite <- ov_fin by exact F.
Qed.
Lemma below_iff p : below p <-> f64_ltb p tol64 = true.
Proof.
  rewrite ltb_iff, (ov_fin tol64) by apply cst_tol. unfold below. pose proof tol_le as T. pose proof (fin_bound tol64) as FB.
  assert (TN : is_nan tol64 = false) by (apply fin_not_nan, cst_tol). split.
  - intros [->|(F & L)]; [split; [reflexivity|]; split; [exact TN|]; cbn [ov]; pose proof top_pos; lra|].
    rewrite ov_fin by exact F. split; [now apply fin_not_nan|]. split; [exact TN|lra].
  - intros (N & _ & L). destruct (is_finite p) eqn:F.
    + right. split; [exact F|]. rewrite ov_fin in L by exact F. destruct (Rlt_dec (B2R p) 0) as [Z|Z]; [unfold tol; lra|].
      rewrite <- (Rabs_pos_eq (B2R p)) by lra. apply tol_gap; [exact F|]. now rewrite Rabs_pos_eq by lra.
    + destruct (fin_cases p N F) as [->| ->]; [now left|]. cbn [ov] in L. lra.
Qed.
Lemma tiny_true p : tiny p -> f64_ltb (Babs p) tol64 = true. Proof. apply tiny_iff. Qed.
Lemma tiny_false p : ~ tiny p -> f64_ltb (Babs p) tol64 = false.
Proof. rewrite tiny_iff. now destruct (f64_ltb _ _). Qed.
Lemma below_true p : below p -> f64_ltb p tol64 = true. Proof. apply below_iff. Qed.
Lemma below_false p : ~ below p -> f64_ltb p tol64 = false.
Proof. rewrite below_iff. now destruct (f64_ltb _ _). Qed.

(** A difference has the sign of the comparison. *)
Lemma minus_neg r c : lt64 r c -> f64_ltb (Bminus mode_NE r c) zero = true.
Proof.
  intros H. destruct (is_finite r) eqn:R, (is_finite c) eqn:C.
  - apply ltb_iff. destruct (ov_minus r c R C) as (E & N). split; [exact N|]. split; [reflexivity|]. rewrite E. change (ov zero) with 0.
    apply ltb_lt64, ltb_iff in H as (_ & _ & H). rewrite !ov_fin in H by assumption.
    assert (Q : rne (B2R r - B2R c) < 0).
    { assert (L : rne (B2R r - B2R c) <= 0) by (apply rne_le; [apply fmt0|lra]).
      assert (X : rne (B2R r - B2R c) <> 0); [|lra]. unfold Rminus. apply round_plus_neq_0; try apply valid_rnd_round_mode.
      - now apply fexp_correct.
      - intros k. change (SpecFloat.fexp 53 1024) with (FLT_exp (-1074) 53). unfold FLT_exp. lia.
      - apply generic_format_B2R.
      - apply generic_format_opp, generic_format_B2R.
      - lra. }
    unfold cap. pose proof top_pos. destruct (Rlt_bool _ _); [exact Q|]. rewrite Rlt_bool_true by exact Q. lra.
  - apply ltb_lt64, ltb_iff in H as (_ & N & H). rewrite (ov_fin r) in H by exact R. pose proof (fin_bound r).
    destruct (fin_cases c N C) as [->| ->]; [cbn [ov] in H; lra|]. destruct r as [s|s| |s m e B]; try discriminate; reflexivity.
  - apply ltb_lt64, ltb_iff in H as (N & _ & H). rewrite (ov_fin c) in H by exact C. pose proof (fin_bound c).
    destruct (fin_cases r N R) as [->| ->]; [|cbn [ov] in H; lra]. destruct c as [s|s| |s m e B]; try discriminate; reflexivity.
  - apply ltb_lt64, ltb_iff in H as (N & N' & H). destruct (fin_cases r N R) as [->| ->], (fin_cases c N' C) as [->| ->]; cbn [ov] in H; try lra; try reflexivity.
    pose proof top_pos. lra.
Qed.
Lemma minus_sign r c : f64_ltb (Bminus mode_NE r c) zero = true <-> lt64 r c.
Proof.
  split; [|apply minus_neg]. intros H. destruct (f64_geb r c) eqn:G.
  - exfalso. apply geb_iff, le64_ov in G as (C & R & L). apply ltb_iff in H as (N & _ & H). change (ov zero) with 0 in H.
    destruct (is_finite r) eqn:FR, (is_finite c) eqn:FC.
    + destruct (ov_minus r c FR FC) as (E & _). rewrite E in H. apply (Rlt_not_le _ _ H). replace 0 with (cap 0).
      * apply cap_mono, rne_ge; [apply fmt0|]. rewrite !ov_fin in L by assumption. lra.
      * apply cap_small. rewrite Rabs_R0. apply top_pos.
    + rewrite (ov_fin r) in L by exact FR. pose proof (fin_bound r). pose proof top_pos.
      destruct (fin_cases c C FC) as [->| ->]; [|cbn [ov] in L; lra]. destruct r as [s|s| |s m e B]; try discriminate; cbn [Bminus ov negb] in H; lra.
    + rewrite (ov_fin c) in L by exact FC. pose proof (fin_bound c). pose proof top_pos.
      destruct (fin_cases r R FR) as [->| ->]; [cbn [ov] in L; lra|]. destruct c as [s|s| |s m e B]; try discriminate; cbn [Bminus ov negb] in H; lra.
    + pose proof top_pos. destruct (fin_cases r R FR) as [->| ->], (fin_cases c C FC) as [->| ->]; try discriminate; try (cbn in N; discriminate); cbn [Bminus Bool.eqb negb ov] in H, L; lra.
  - destruct (is_nan r) eqn:R; [destruct r; try discriminate; now destruct c|].
    destruct (is_nan c) eqn:C; [destruct c; try discriminate; now destruct r|].
    apply geb_false; [now apply number_nan|now apply number_nan|exact G].
Qed.
Lemma minus_not_neg r c : ~ lt64 r c -> f64_ltb (Bminus mode_NE r c) zero = false.
Proof. rewrite <- minus_sign. now destruct (f64_ltb _ _). Qed.

Section Libm.
Context (pow : f64 -> f64 -> f64) (lg ex : f64 -> f64).
Notation O := (f64_ops pow lg ex).
Ltac ev := unfold eval_parametric; cbn [nth_error f64_ops f_lit f_neg f_abs f_add f_sub f_mul f_div f_lt f_ge f_max f_pow f_log10 f_exp];
  rewrite ?cst0.
Lemma blind_zero t ps r : blind t ps -> eval_parametric O t ps r = Some zero.
Proof.
  unfold blind.
  repeat match goal with
  | |- match ?t with _ => _ end -> _ => destruct t; try contradiction
  end; intros H; ev; repeat match goal with
  | H : _ \/ _ |- _ => destruct H as [H|H]
  | H : _ /\ _ |- _ => destruct H
  end; try (unfold tiny in *; fail);
  repeat match goal with
  | H : tiny _ |- _ => rewrite (tiny_true _ H); clear H
  | H : below _ |- _ => rewrite (below_true _ H); clear H
  end; rewrite ?Bool.orb_true_r; cbn [orb]; repeat destruct (f64_ltb _ _); repeat destruct (f64_geb _ _); reflexivity.
Qed.

Lemma under_zero t ps r : under_range t ps r -> eval_parametric O t ps r = Some zero.
Proof.
  unfold under_range.
  repeat match goal with
  | |- match ?t with _ => _ end -> _ => destruct t; try contradiction
  end; intros H; ev;
  first [ rewrite (minus_neg _ _ H); now repeat destruct (f64_ltb _ _)
        | apply ltb_lt64 in H; rewrite H; destruct (_ || _)%bool; [reflexivity|]; now destruct (f64_ltb zero zero) ].
Qed.
Lemma type_m5_under g a b c d e f r :
  le64 (Bplus mode_NE (Bmult mode_NE c d) f) r -> lt64 r e -> eval_parametric O (-5) [g; a; b; c; d; e; f] r = Some zero.
Proof. intros D H. apply geb_iff in D. ev. rewrite D. now rewrite (minus_neg _ _ H). Qed.
Lemma type_m3_under g a b c r : ~ tiny a -> lt64 r c -> eval_parametric O (-3) [g; a; b; c] r = Some (Bdiv mode_NE (Bopp b) a).
Proof.
  intros A H. ev. rewrite (tiny_false _ A). destruct (f64_geb r c) eqn:G; [|reflexivity]. apply geb_iff in G. now destruct H.
Qed.
Lemma type_m3_at g a b c : finite c -> eval_parametric O (-3) [g; a; b; c] c = Some zero.
Proof.
  intros C. ev. destruct (f64_ltb _ _); [reflexivity|].
  replace (f64_geb c c) with true by (symmetry; apply geb_iff, le64_refl; now apply number_fin).
  replace (f64_ltb zero (Bminus mode_NE c c)) with false; [reflexivity|]. symmetry. apply Bool.not_true_iff_false. rewrite ltb_iff.
  intros (_ & _ & L). destruct (ov_minus c c C C) as (E & _). rewrite E, Rminus_diag_eq, round_0 in L by (try reflexivity; apply valid_rnd_round_mode).
  change (ov zero) with 0 in L. unfold cap in L. rewrite Rabs_R0, Rlt_bool_true in L by apply top_pos. lra.
Qed.
Lemma type_m1_tiny g r : tiny g -> ~ lt64 r zero -> exists y, eval_parametric O (-1) [g] r = Some y /\ finite y /\ B2R y = IZR (10 ^ 22).
Proof.
  intros G H. exists (f64_cst Lplus_inf). split.
  - ev. rewrite (tiny_true _ G). destruct (f64_ltb r zero) eqn:E; [|reflexivity]. now apply ltb_lt64 in E.
  - split; [reflexivity|]. assert (X : B2SF (f64_cst Lplus_inf) = B2SF (f64_lit 4768371582031250 21)) by (vm_compute; reflexivity).
    apply B2SF_inj in X. rewrite X. destruct (f64_lit_exact 4768371582031250 21) as (-> & _); [lia|lia|].
    rewrite <- IZR_Zpower, <- mult_IZR by lia. f_equal.
Qed.
(** log 1 = 0: division by zero. *)
Lemma type_m8_unit a c d e r y : lg (f64_cst L1) = zero -> finite c -> finite d -> ~ tiny a -> ~ tiny c -> ~ lt64 r e ->
  eval_parametric O (-8) [a; f64_cst L1; c; d; e] r = Some y -> ~ finite y.
Proof.
  intros Z C D A C' R. apply minus_not_neg in R. ev. rewrite (tiny_false _ A), (tiny_false _ C'), Z, R. cbn [orb]. intros [= <-]. unfold finite.
  set (x := lg _). destruct x as [s|s| |s m k B]; unfold zero; cbn [Bdiv]; destruct d as [s'|s'| |s' m' k' B']; try discriminate;
    cbn [Bminus]; destruct c as [s''|s''| |s'' m'' k'' B'']; try discriminate; cbn; discriminate.
Qed.
End Libm.

Ltac ev := unfold eval_parametric; cbn [nth_error f64_ops f_lit f_neg f_abs f_add f_sub f_mul f_div f_lt f_ge f_max f_pow f_log10 f_exp];
  rewrite ?cst0.
Definition nan_pow (x y : f64) : f64 := nan.
Lemma inf_ge x : number x -> f64_geb (B754_infinity false) x = true.
Proof. intros N. apply geb_iff. destruct x as [s|[|]| |s m e B]; try exact I. now destruct N. Qed.
Lemma inf_minus c : finite c -> Bminus mode_NE (B754_infinity false) c = B754_infinity false.
Proof. destruct c; try discriminate; reflexivity. Qed.
Lemma prod_plus_number c d f : finite c -> finite d -> finite f -> number (Bplus mode_NE (Bmult mode_NE c d) f).
Proof. intros C D F. apply plus_number; [|exact F]. apply number_nan. now destruct (ov_mult c d C D). Qed.

Lemma blind_only t ps : judged t -> parameters_of (Z.abs t) = Some (length ps) -> Forall finite ps ->
  (forall pow lg ex r, eval_parametric (f64_ops pow lg ex) t ps r = Some zero) -> blind t ps.
Proof.
  intros J LN FN H.
  assert (D : blind t ps \/ ~ blind t ps) by apply Classical_Prop.classic. destruct D as [D|D]; [exact D|exfalso].
  assert (Q : exists pow lg ex r, eval_parametric (f64_ops pow lg ex) t ps r <> Some zero);
    [clear H|destruct Q as (pow & lg & ex & r & Q); now apply Q].
  unfold judged in J. cbn [In] in J.
  repeat destruct J as [<-|J]; try contradiction; cbn in LN; injection LN as LN;
    repeat (destruct ps as [|? ps]; [discriminate LN|]; injection LN as LN);
    (destruct ps; [|discriminate LN]);
    repeat match goal with H : Forall _ (_ :: _) |- _ => inversion_clear H end; cbn [blind] in D;
    try solve [exists nan_pow, (fun _ => nan), (fun _ => nan), nan; ev;
      repeat match type of D with ~ (_ \/ _) => apply Decidable.not_or in D as (? & D) end;
      repeat match goal with H : ~ tiny _ |- _ => rewrite (tiny_false _ H); clear H | H : ~ below _ |- _ => rewrite (below_false _ H); clear H end;
      cbn; discriminate].
  - exists nan_pow, (fun _ => nan), (fun _ => nan), nan. ev. nn. destruct (f64_ltb (Babs f) tol64); discriminate.
  - exists nan_pow, (fun _ => nan), (fun _ => nan), (B754_infinity false). ev. rewrite (tiny_false _ D), inf_ge, inf_minus by (assumption || now apply number_fin). discriminate.
  - assert (DC : tiny f2 \/ ~ tiny f2) by apply Classical_Prop.classic. destruct DC as [DC|DC].
    + assert (DA : ~ tiny f /\ ~ tiny f0) by tauto. destruct DA as (DA & DB).
      set (x := Bplus mode_NE (Bmult mode_NE f0 f3) f1).
      destruct x as [s|s| |s m k B] eqn:EX.
      1,4: exists (fun x _ => match x with B754_infinity _ => nan | _ => zero end), (fun _ => nan), (fun _ => nan), (B754_infinity false); ev; fold x; rewrite EX, (tiny_false _ DA), (tiny_false _ DB);
        cbn [orb]; rewrite inf_ge; [discriminate|]; now destruct (f64_ltb _ _).
      * exists (fun x _ => match x with B754_infinity _ => zero | _ => nan end), (fun _ => nan), (fun _ => nan), (f64_cst L1); ev; fold x; rewrite EX, (tiny_false _ DA), (tiny_false _ DB).
        replace (f64_geb (f64_cst L1) _) with true by now destruct (f64_ltb _ _). cbn. discriminate.
      * exfalso. assert (N : number x) by now apply prod_plus_number. now apply N.
    + exists nan_pow, (fun _ => nan), (fun _ => nan), nan. ev. rewrite (tiny_false _ DC). cbn. discriminate.
  - assert (DC : tiny f2 \/ ~ tiny f2) by apply Classical_Prop.classic. destruct DC as [DC|DC].
    + assert (DA : ~ tiny f /\ ~ tiny f0) by tauto. destruct DA as (DA & DB).
      exists nan_pow, (fun _ => nan), (fun _ => nan), (B754_infinity false). ev.
      rewrite inf_ge by now apply prod_plus_number. rewrite inf_minus, (tiny_false _ DA), (tiny_false _ DB) by assumption. discriminate.
    + exists nan_pow, (fun _ => nan), (fun _ => nan), nan. ev. rewrite (tiny_false _ DC). cbn. discriminate.
  - exists nan_pow, (fun _ => nan), (fun _ => nan), nan. ev. nn. discriminate.
  - exists nan_pow, (fun _ => nan), (fun _ => nan), nan. ev. unfold nan_pow. nn. discriminate.
  - exists nan_pow, (fun _ => nan), (fun _ => nan), nan. ev. unfold nan_pow. nn. discriminate.
Qed.

(** A logarithmic curve with negative scale is not reversed. *)
From Verif Require M_CurveReal P_Curve P_Curve2 S_Curve2.
Import M_CurveReal P_Curve P_Curve2 S_Curve2.
Lemma log_10_inj x y : 0 < x -> 0 < y -> log_10 x = log_10 y -> x = y.
Proof.
  intros X Y E. unfold log_10 in E. pose proof ln10_pos. apply ln_inv; [exact X|exact Y|].
  replace (ln x) with (ln x / ln 10 * ln 10) by (field; lra). rewrite E. field. lra.
Qed.
Lemma power_inj g x y : 0 < g -> 0 <= x -> 0 <= y -> power x g = power y g -> x = y.
Proof. intros G X Y E. rewrite <- (power_undo x g), <- (power_undo y g) by lra. now rewrite E. Qed.
Lemma type7_negative g a b c d r r' y : 0 < g -> 0 < b -> a < 0 -> 0 < c -> 0 < r -> 0 <= r' ->
  eval_real 7 [g; a; b; c; d] r = Some (Fin y) ->
  (eval_real 7 [g; a; b; c; d] r' = Some (Fin y) <-> r' = r) /\ eval_real (-7) [g; a; b; c; d] y = Some (Fin 0).
Proof.
  intros G B A C R R' E. assert (P : forall x, 0 <= x -> 0 < b * power x g + c) by (intros x X; pose proof (power_ge0 x g); nra). split.
  - split; [|now intros ->]. rewrite !type7_formula in * by lra. pose proof (P r ltac:(lra)) as P1. pose proof (P r' R') as P2.
    destruct (Rle_dec _ 0) in E; [lra|]. destruct (Rle_dec _ 0); [lra|]. intros E'. injection E as <-. injection E' as E'. unfold icc7 in E'.
    apply (power_inj g); try lra. assert (L : log_10 (b * power r' g + c) = log_10 (b * power r g + c)) by nra.
    apply log_10_inj in L; [nra|exact P2|exact P1].
  - pose proof tol_pos. unfold eval_real. unfold eval_parametric. cbn. rewrite (Rltb_t a) by (unfold tol in *; lra). now rewrite Bool.orb_true_r.
Qed.
Lemma zero_tiny : tiny zero.
Proof. split; [reflexivity|]. cbn. rewrite Rabs_R0. unfold tol. lra. Qed.
Lemma one_not_tiny : ~ tiny (f64_cst L1).
Proof. intros (_ & H). rewrite (proj1 cst1), Rabs_R1 in H. unfold tol in H. lra. Qed.
