(** The exact-arithmetic pow, log10 and exp of the model are those of C99. *)
From Coq Require Import ZArith Reals Lia Lra.
From Verif Require Import M_CurveReal S_Pow P_Exact.
Open Scope R_scope.

Lemma Rltb_t x y : x < y -> Rltb x y = true. Proof. intros H. unfold Rltb. now destruct (Rlt_dec x y). Qed.
Lemma Rltb_f x y : y <= x -> Rltb x y = false. Proof. intros H. unfold Rltb. destruct (Rlt_dec x y); [lra|reflexivity]. Qed.
Lemma Int_part_IZR n : Int_part (IZR n) = n.
Proof.
  pose proof (base_Int_part (IZR n)) as (A & B). apply le_IZR in A. assert (H : (-1 < Int_part (IZR n) - n)%Z) by (apply lt_IZR; rewrite minus_IZR; lra). lia.
Qed.
Lemma is_integer_IZR n : is_integer (IZR n) = true. Proof. unfold is_integer. rewrite Int_part_IZR. apply Reqb_t. Qed.
Lemma is_integer_inv y : is_integer y = true -> y = IZR (Int_part y).
Proof. unfold is_integer, Reqb. now destruct (Req_EM_T _ _). Qed.
Lemma not_integer y : (forall n, y <> IZR n) -> is_integer y = false.
Proof. intros H. unfold is_integer. apply Reqb_f. intros E. now apply (H (Int_part y)). Qed.
Lemma powerRZ_m1_even m : powerRZ (-1) (2 * m) = 1.
Proof. replace (2 * m)%Z with (m + m)%Z by ring. rewrite powerRZ_add by lra. rewrite <- powerRZ_mult. replace (-1 * -1) with 1 by ring. apply powerRZ_R1. Qed.
Lemma powerRZ_m1 n : powerRZ (-1) n = if Z.even n then 1 else -1.
Proof.
  destruct (Z.even n) eqn:V.
  - apply Z.even_spec in V as (m & ->). apply powerRZ_m1_even.
  - rewrite <- Z.negb_odd in V. apply Bool.negb_false_iff, Z.odd_spec in V as (m & ->). rewrite powerRZ_add by lra. rewrite powerRZ_m1_even. pose proof (powerRZ_1 (-1)) as E. change (Z.succ 0) with 1%Z in E. rewrite E. lra.
Qed.
(** x^n for x < 0. *)
Lemma powerRZ_Rpower_neg x n : x < 0 -> powerRZ x n = if Z.even n then Rpower (- x) (IZR n) else - Rpower (- x) (IZR n).
Proof.
  intros H. rewrite <- (powerRZ_Rpower (- x) n) by lra. replace x with ((-1) * - x) at 1 by ring. rewrite powerRZ_mult, powerRZ_m1.
  destruct (Z.even n); ring.
Qed.
Lemma odd_of n : Z.odd (2 * n + 1) = true. Proof. apply Z.odd_spec. now exists n. Qed.
Lemma pow_sound x y z : c_pow x y z -> ext_pow x y = z.
Proof.
  intros H. destruct H as [y L|y L| | |y|x|x y L N|x L|x L|x L|x L|y L|n L|y L N|y L|y L|x L|x L|y N|x N|x y L|x n L]; cbn [ext_pow].
  - rewrite Reqb_f, Rltb_f, Reqb_t, Rltb_f by lra. reflexivity.
  - rewrite Reqb_f, Rltb_f, Reqb_t, Rltb_t by lra. reflexivity.
  - rewrite Rabs_left by lra. replace (- -1) with 1 by ring. now rewrite Reqb_t.
  - rewrite Rabs_left by lra. replace (- -1) with 1 by ring. now rewrite Reqb_t.
  - destruct y as [y| | |]; cbn [ext_pow].
    + unfold Reqb at 1. destruct (Req_EM_T y 0); [reflexivity|]. rewrite Rltb_t by lra. unfold Rpower. now rewrite ln_1, Rmult_0_r, exp_0.
    + now rewrite Rabs_R1, Reqb_t.
    + now rewrite Rabs_R1, Reqb_t.
    + now rewrite Reqb_t.
  - destruct x; cbn [ext_pow]; now rewrite Reqb_t.
  - rewrite Reqb_f by apply (N 0%Z). rewrite Rltb_f, Reqb_f, not_integer by (lra || assumption). reflexivity.
  - rewrite Reqb_f, Rltb_t by lra. reflexivity.
  - rewrite Reqb_f, Rltb_f by lra. reflexivity.
  - rewrite Reqb_f, Rltb_t by lra. reflexivity.
  - rewrite Reqb_f, Rltb_f by lra. reflexivity.
  - rewrite Reqb_f, Rltb_f by lra. reflexivity.
  - apply IZR_lt in L. rewrite Reqb_f, Rltb_t, is_integer_IZR, Int_part_IZR by lra. now rewrite odd_of.
  - rewrite Reqb_f, Rltb_t by lra. destruct (is_integer y) eqn:E; [|reflexivity]. cbn [andb]. destruct (Z.odd (Int_part y)) eqn:D; [|reflexivity].
    apply is_integer_inv in E. apply Z.odd_spec in D as (m & D). rewrite D in E. now destruct (N m).
  - rewrite Reqb_f, Rltb_f by lra. reflexivity.
  - rewrite Reqb_f, Rltb_t by lra. reflexivity.
  - destruct L as [-> | ->]; reflexivity.
  - destruct L as [-> | ->]; reflexivity.
  - destruct y as [y| | |]; try reflexivity. cbn [ext_pow]. now rewrite Reqb_f by congruence.
  - destruct x as [x| | |]; try reflexivity. cbn [ext_pow]. now rewrite Reqb_f by congruence.
  - unfold Reqb at 1. destruct (Req_EM_T y 0) as [->|]; [now rewrite Rmult_0_l, exp_0|]. now rewrite Rltb_t by lra.
  - unfold Reqb at 1. destruct (Req_EM_T (IZR n) 0) as [E|].
    + apply eq_IZR in E as ->. reflexivity.
    + rewrite Rltb_f, Reqb_f, is_integer_IZR, Int_part_IZR, powerRZ_Rpower_neg by lra. now destruct (Z.even n).
Qed.
Lemma pow_total x y : exists z, c_pow x y z.
Proof.
  destruct y as [y| | |].
  - destruct (Req_dec y 0) as [->|NY]; [eexists; apply pow_any_0|]. destruct (Rlt_le_dec y 0) as [YN|YP].
    + destruct x as [x| | |]; [|eexists; now constructor|eexists; now constructor|eexists; apply pow_nan_l; congruence].
      destruct (Rtotal_order x 0) as [L|[->|L]]; [|eexists; now constructor|eexists; now apply pow_pos].
      destruct (is_integer y) eqn:I.
      * apply is_integer_inv in I. rewrite I. eexists. now apply pow_neg_int.
      * eexists. apply pow_neg_nonint; [exact L|]. intros n ->. now rewrite is_integer_IZR in I.
    + assert (YQ : 0 < y) by lra. destruct x as [x| | |]; [|eexists; now constructor| |eexists; apply pow_nan_l; congruence].
      * destruct (Rtotal_order x 0) as [L|[->|L]]; [|eexists; now apply pow_0_pos|eexists; now apply pow_pos].
        destruct (is_integer y) eqn:I.
        -- apply is_integer_inv in I. rewrite I. eexists. now apply pow_neg_int.
        -- eexists. apply pow_neg_nonint; [exact L|]. intros n ->. now rewrite is_integer_IZR in I.
      * destruct (is_integer y && Z.odd (Int_part y))%bool eqn:I.
        -- apply Bool.andb_true_iff in I as (I & D). apply is_integer_inv in I. apply Z.odd_spec in D as (m & D). rewrite D in I. rewrite I.
           eexists. apply pow_ninf_odd. apply lt_IZR. now rewrite <- I.
        -- eexists. apply pow_ninf_pos; [exact YQ|]. intros n ->. now rewrite is_integer_IZR, Int_part_IZR, odd_of in I.
  - destruct x as [x| | |]; [|eexists; apply pow_inf_pinf; auto|eexists; apply pow_inf_pinf; auto|eexists; now apply pow_nan_l].
    destruct (Rtotal_order (Rabs x) 1) as [L|[E|L]]; [eexists; now apply pow_small_pinf| |eexists; now apply pow_big_pinf].
    unfold Rabs in E. destruct (Rcase_abs x); [replace x with (-1) by lra|rewrite E]; eexists; constructor.
  - destruct x as [x| | |]; [|eexists; apply pow_inf_ninf; auto|eexists; apply pow_inf_ninf; auto|eexists; now apply pow_nan_l].
    destruct (Rtotal_order (Rabs x) 1) as [L|[E|L]]; [eexists; now apply pow_small_ninf| |eexists; now apply pow_big_ninf].
    unfold Rabs in E. destruct (Rcase_abs x); [replace x with (-1) by lra|rewrite E]; eexists; constructor.
  - destruct x as [x| | |]; try (eexists; apply pow_nan_r; discriminate).
    destruct (Req_dec x 1) as [->|N]; [eexists; apply pow_1_any|eexists; apply pow_nan_r; congruence].
Qed.
Lemma pow_iff x y z : c_pow x y z <-> ext_pow x y = z.
Proof. split; [apply pow_sound|]. intros <-. destruct (pow_total x y) as (z & H). now rewrite (pow_sound _ _ _ H). Qed.
Lemma log_iff x z : c_log10 x z <-> ext_log10 x = z.
Proof.
  split.
  - intros H. destruct H as [|x L| | | |z]; cbn [ext_log10]; try reflexivity.
    + rewrite Rltb_f, Reqb_t by lra. reflexivity.
    + rewrite Rltb_f, Reqb_f by lra. reflexivity.
    + rewrite Rltb_t by apply exp_pos. unfold Rpower. rewrite ln_exp. f_equal. field. apply Rgt_not_eq.
      rewrite <- ln_1. apply ln_increasing; lra.
  - intros <-. destruct x as [x| | |]; cbn [ext_log10]; try constructor. destruct (Rtotal_order x 0) as [L|[->|L]].
    + rewrite Rltb_f, Reqb_f by lra. now constructor.
    + rewrite Rltb_f, Reqb_t by lra. constructor.
    + rewrite Rltb_t by lra. assert (T : ln 10 <> 0) by (apply Rgt_not_eq; rewrite <- ln_1; apply ln_increasing; lra).
      assert (E : Rpower 10 (ln x / ln 10) = x) by (unfold Rpower; replace (ln x / ln 10 * ln 10) with (ln x) by (field; exact T); now apply exp_ln).
      rewrite <- E at 1. constructor.
Qed.
Lemma exp_iff x z : c_exp x z <-> ext_exp x = z.
Proof. split; [now intros []|]. intros <-. destruct x; constructor. Qed.
